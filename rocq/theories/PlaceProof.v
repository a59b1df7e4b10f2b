(* The placement of the ordinary gates: after it, the four gate slots of the gate rows hold exactly
   the gates of the circuit, padded with copies and with empty gates. *)
From Verif Require Import Base GlModel FrField ListAux PlonkModel PlonkProof CompressorModel.
From Coq Require Import Permutation.
Open Scope nat_scope.

(* ---- writing a row ---- *)
Definition alast {A} (l : list (nat * A)) (c : nat) (x : A) : A :=
  fold_left (fun acc cv => if c =? fst cv then snd cv else acc) l x.

Lemma set_ss_inv d r l : forall t t', set_ss d r l t = Ok t' ->
  (l <> [] -> r < n_used d) /\ cm t' = cm t /\ sel t' = sel t /\
  forall c q, sm t' c q = if q =? r then alast l c (sm t c q) else sm t c q.
Proof.
  unfold set_ss. induction l as [|[c v] l IH]; intros t t' H; cbn [foldM fst snd] in H.
  - injection H as <-. repeat split; [congruence|]. intros. cbn. destruct (q =? r); reflexivity.
  - unfold set_s at 1 in H. destruct (Nat.ltb_spec c 12); cbn [andb] in H; [|discriminate].
    destruct (Nat.ltb_spec r (n_used d)); [|discriminate]. cbn [bind] in H. apply IH in H. destruct H as [_ [A [B C]]].
    cbn [cm sel sm] in *. repeat split; auto. intros c' q. rewrite C. unfold gset, alast. cbn [fold_left fst snd].
    destruct (Nat.eqb_spec q r); [|rewrite andb_false_r; reflexivity]. rewrite andb_true_r. reflexivity.
Qed.
Lemma set_ss_ok d r l : forall t, Forall (fun cv => fst cv < 12) l -> r < n_used d -> exists t', set_ss d r l t = Ok t'.
Proof.
  unfold set_ss. induction l as [|[c v] l IH]; intros t F H; cbn [foldM fst snd]; [eauto|]. inversion F; subst. cbn [fst] in *.
  unfold set_s at 1. destruct (Nat.ltb_spec c 12); [|lia]. destruct (Nat.ltb_spec r (n_used d)); [|lia]. cbn [andb bind]. auto.
Qed.
Lemma set_cs_inv d r l : forall t t', set_cs d r l t = Ok t' ->
  (l <> [] -> r < n_rows d) /\ sm t' = sm t /\ sel t' = sel t /\
  forall c q, cm t' c q = if q =? r then alast l c (cm t c q) else cm t c q.
Proof.
  unfold set_cs. induction l as [|[c v] l IH]; intros t t' H; cbn [foldM fst snd] in H.
  - injection H as <-. repeat split; [congruence|]. intros. cbn. destruct (q =? r); reflexivity.
  - unfold set_c at 1 in H. destruct (Nat.ltb_spec c 12); cbn [andb] in H; [|discriminate].
    destruct (Nat.ltb_spec r (n_rows d)); [|discriminate]. cbn [bind] in H. apply IH in H. destruct H as [_ [A [B C]]].
    cbn [cm sel sm] in *. repeat split; auto. intros c' q. rewrite C. unfold gset, alast. cbn [fold_left fst snd].
    destruct (Nat.eqb_spec q r); [|rewrite andb_false_r; reflexivity]. rewrite andb_true_r. reflexivity.
Qed.
Lemma set_cs_ok d r l : forall t, Forall (fun cv => fst cv < 12) l -> r < n_rows d -> exists t', set_cs d r l t = Ok t'.
Proof.
  unfold set_cs. induction l as [|[c v] l IH]; intros t F H; cbn [foldM fst snd]; [eauto|]. inversion F; subst. cbn [fst] in *.
  unfold set_c at 1. destruct (Nat.ltb_spec c 12); [|lia]. destruct (Nat.ltb_spec r (n_rows d)); [|lia]. cbn [andb bind]. auto.
Qed.
Definition slast (l : list (selector * Fr)) (c : selector) (x : Fr) : Fr :=
  fold_left (fun acc cv => if sel_eqb c (fst cv) then snd cv else acc) l x.
Lemma set_sels_inv d r l : forall t t', set_sels d r l t = Ok t' ->
  (l <> [] -> r < n_rows d) /\ sm t' = sm t /\ cm t' = cm t /\
  forall c q, sel t' c q = if q =? r then slast l c (sel t c q) else sel t c q.
Proof.
  unfold set_sels. induction l as [|[c v] l IH]; intros t t' H; cbn [foldM fst snd] in H.
  - injection H as <-. repeat split; [congruence|]. intros. cbn. destruct (q =? r); reflexivity.
  - unfold set_sel at 1 in H.
    destruct (Nat.ltb_spec r (n_rows d)); [|discriminate]. cbn [bind] in H. apply IH in H. destruct H as [_ [A [B C]]].
    cbn [cm sel sm] in *. repeat split; auto. intros c' q. rewrite C. unfold slast. cbn [fold_left fst snd].
    destruct (Nat.eqb_spec q r); [|rewrite andb_false_r; reflexivity]. rewrite andb_true_r. reflexivity.
Qed.
Lemma set_sels_ok d r l : forall t, r < n_rows d -> exists t', set_sels d r l t = Ok t'.
Proof.
  unfold set_sels. induction l as [|[c v] l IH]; intros t H; cbn [foldM fst snd]; [eauto|].
  unfold set_sel at 1. destruct (Nat.ltb_spec r (n_rows d)); [|lia]. cbn [andb bind]. auto.
Qed.

(* ---- slots ---- *)
(* the gate written in slot s < 4 of row q: columns 3s, 3s+1, 3s+2, constants C[0..4] or C[6..10] *)
Definition slot (t : tables) (q s : nat) : PlonkGate :=
  let b := if s <? 2 then 0 else 6 in
  mkGate (sm t (3 * s) q) (sm t (3 * s + 1) q) (sm t (3 * s + 2) q)
         (cm t (b + 3) q) (cm t b q) (cm t (b + 1) q) (cm t (b + 2) q) (cm t (b + 4) q).
Definition empty_gate : PlonkGate := mkGate 0 0 0 f0 f0 f0 f0 f0.

Lemma slot_ext t t' q s : (forall c, sm t c q = sm t' c q) -> (forall c, cm t c q = cm t' c q) -> slot t q s = slot t' q s.
Proof. intros A B. unfold slot. rewrite !A, !B. reflexivity. Qed.

Lemma key_eqb_eq a b : key_eqb a b = true <-> a = b.
Proof.
  destruct a as [[[[a1 a2] a3] a4] a5], b as [[[[b1 b2] b3] b4] b5]. unfold key_eqb. rewrite !andb_true_iff, !Z.eqb_eq.
  split; [intros [[[[-> ->] ->] ->] ->]; reflexivity|intros [=]; auto].
Qed.
Lemma key_dec (a b : key) : {a = b} + {a <> b}.
Proof. destruct (key_eqb a b) eqn:E; [left; apply key_eqb_eq, E|right; intros H; apply key_eqb_eq in H; congruence]. Qed.
Lemma str_key_inj g h : str_key g = str_key h -> g_qm g = g_qm h /\ g_ql g = g_ql h /\ g_qr g = g_qr h /\ g_qo g = g_qo h /\ g_qc g = g_qc h.
Proof. unfold str_key. intros [=]. repeat split; apply fint_inj; assumption. Qed.

Lemma pget_some k p v : pget k p = Some v -> In (k, v) p.
Proof.
  induction p as [|[k' v'] p IH]; cbn; [discriminate|]. destruct (key_eqb k k') eqn:E.
  - apply key_eqb_eq in E. intros [=]. subst. left. reflexivity.
  - intros H. right. apply IH, H.
Qed.
Lemma pget_none k p : pget k p = None -> ~ In k (map fst p).
Proof.
  induction p as [|[k' v'] p IH]; cbn; [auto|]. destruct (key_eqb k k') eqn:E; [discriminate|].
  intros H [->|X]; [rewrite (proj2 (key_eqb_eq k k) eq_refl) in E; discriminate|]. exact (IH H X).
Qed.
Lemma in_premove k p e : In e (premove k p) <-> In e p /\ fst e <> k.
Proof.
  unfold premove. rewrite filter_In. destruct (key_eqb k (fst e)) eqn:E; cbn [negb].
  - apply key_eqb_eq in E. split; intros [A B]; [discriminate|]. congruence.
  - split; intros [A B]; split; auto. intros X. rewrite X, (proj2 (key_eqb_eq k k) eq_refl) in E. discriminate.
Qed.
Lemma NoDup_map_filter {A B} (f : A -> B) q l : NoDup (map f l) -> NoDup (map f (filter q l)).
Proof.
  induction l as [|a l IH]; cbn; [auto|]. intros H. inversion H; subst. destruct (q a); cbn; [|auto]. constructor; [|auto].
  intros X. apply H2. apply in_map_iff in X. destruct X as [y [E X]]. apply filter_In in X. rewrite <- E. apply in_map, X.
Qed.
Lemma NoDup_map_inj {A B} (f : A -> B) l x y : NoDup (map f l) -> In x l -> In y l -> f x = f y -> x = y.
Proof.
  induction l as [|a l IH]; cbn; [contradiction|]. intros H [->|Hx] [->|Hy] E; auto; inversion H; subst.
  - exfalso. apply H2. rewrite E. apply in_map, Hy.
  - exfalso. apply H2. rewrite <- E. apply in_map, Hx.
  - apply IH; assumption.
Qed.
Lemma NoDup_snoc {A} (l : list A) x : NoDup l -> ~ In x l -> NoDup (l ++ [x]).
Proof. intros H N. apply NoDup_rev in H. rewrite <- (rev_involutive (l ++ [x])). apply NoDup_rev. rewrite rev_app_distr. cbn. constructor; [rewrite <- in_rev; exact N|exact H]. Qed.

Record inv (r0 : nat) (t0 : tables) (done : list PlonkGate) (l : layout) (cnt : nat -> nat) : Prop := mkInv {
  i_low : r0 <= row l;
  i_in : forall q, r0 <= q < row l -> 1 <= cnt q <= 4;
  i_out : forall q, ~ (r0 <= q < row l) -> cnt q = 0;
  i_par : forall k q n, In (k, (q, n)) (partial l) -> n = cnt q /\ (n = 1 \/ n = 3) /\ str_key (slot (tb l) q (n - 1)) = k;
  i_parnd : NoDup (map fst (partial l));
  i_half : forall q n, In (q, n) (half l) -> n = 2 /\ cnt q = 2;
  i_halfnd : NoDup (map fst (half l));
  i_odd : forall q, cnt q = 1 \/ cnt q = 3 -> exists k, In (k, (q, cnt q)) (partial l);
  i_two : forall q, cnt q = 2 -> In (q, 2) (half l);
  i_used : forall q s, s < cnt q -> In (slot (tb l) q s) done;
  i_all : forall g, In g done -> exists q s, s < cnt q /\ slot (tb l) q s = g;
  i_sel : forall q, r0 <= q < row l -> forall n, sel (tb l) n q = match n with GATE => f1 | _ => f0 end;
  i_frame : forall q, ~ (r0 <= q < row l) -> (forall c, sm (tb l) c q = sm t0 c q) /\ (forall c, cm (tb l) c q = cm t0 c q) /\ (forall n, sel (tb l) n q = sel t0 n q)
}.

Definition up (cnt : nat -> nat) (q v : nat) : nat -> nat := fun x => if x =? q then v else cnt x.
Lemma up_eq cnt q v : up cnt q v q = v. Proof. unfold up. rewrite Nat.eqb_refl. reflexivity. Qed.
Lemma up_neq cnt q v x : x <> q -> up cnt q v x = cnt x.
Proof. intros H. unfold up. destruct (Nat.eqb_spec x q); [contradiction|reflexivity]. Qed.

(* writing the three signals of slot n of row r, the constants of its block being those of the gate *)
Lemma slot_write d r n g t t' :
  set_ss d r [(n * 3, g_sl g); (n * 3 + 1, g_sr g); (n * 3 + 2, g_so g)] t = Ok t' ->
  (forall q s, (q <> r \/ s <> n) -> slot t' q s = slot t q s) /\
  (str_key (slot t r n) = str_key g -> slot t' r n = g) /\
  (forall q c, q <> r -> sm t' c q = sm t c q) /\ cm t' = cm t /\ sel t' = sel t.
Proof.
  intros H. apply set_ss_inv in H. destruct H as [_ [A [B C]]]. split; [|split; [|split; [|auto]]].
  - intros q s Hs. unfold slot. rewrite A. rewrite !C. destruct (Nat.eqb_spec q r) as [->|]; [|reflexivity].
    destruct Hs as [Hs|Hs]; [congruence|]. unfold alast. cbn [fold_left fst snd].
    repeat match goal with |- context [?a =? ?b] => destruct (Nat.eqb_spec a b); [lia|] end. reflexivity.
  - intros K. apply str_key_inj in K. destruct K as [K1 [K2 [K3 [K4 K5]]]]. revert K1 K2 K3 K4 K5.
    unfold slot. cbn [g_qm g_ql g_qr g_qo g_qc]. rewrite A. intros -> -> -> -> ->. rewrite !C, Nat.eqb_refl. unfold alast. cbn [fold_left fst snd].
    replace (3 * n) with (n * 3) by lia. rewrite !Nat.eqb_refl.
    repeat match goal with |- context [?a =? ?b] => destruct (Nat.eqb_spec a b); [lia|] end. destruct g; reflexivity.
  - intros q c Hq. rewrite C. destruct (Nat.eqb_spec q r); [congruence|reflexivity].
Qed.

Lemma place_step d r0 t0 done l cnt g l' : inv r0 t0 done l cnt -> place d l g = Ok l' ->
  exists cnt', inv r0 t0 (done ++ [g]) l' cnt'.
Proof.
  intros [LOW IN OUT PAR PND HF HND ODD TWO USED ALL SEL FR] H. unfold place in H.
  destruct (pget (str_key g) (partial l)) as [[r n]|] eqn:EP.
  - (* an open row of the same kind *)
    apply pget_some in EP. destruct (PAR _ _ _ EP) as [En [Hn Hk]].
    assert (RNG : r0 <= r < row l). { destruct (Nat.leb_spec r0 r); destruct (Nat.ltb_spec r (row l)); try lia; rewrite OUT in En; lia. }
    destruct (set_ss d r _ (tb l)) as [t| | |] eqn:ET; cbn [bind] in H; try discriminate.
    apply slot_write in ET. destruct ET as [SW1 [SW2 [SW3 [SW4 SW5]]]].
    assert (SN : slot t r n = g).
    { apply SW2. rewrite <- Hk. unfold slot, str_key. cbn [g_qm g_ql g_qr g_qo g_qc]. destruct Hn as [->| ->]; reflexivity. }
    assert (USED' : forall q s, s < up cnt r (n + 1) q -> In (slot t q s) (done ++ [g])).
    { intros q s Hs. apply in_or_app. destruct (Nat.eq_dec q r) as [->|N].
      - rewrite up_eq in Hs. destruct (Nat.eq_dec s n) as [->|Ns]; [right; left; symmetry; exact SN|].
        rewrite SW1 by (right; exact Ns). left. apply USED. lia.
      - rewrite up_neq in Hs by exact N. rewrite SW1 by (left; exact N). left. apply USED, Hs. }
    assert (ALL' : forall h, In h (done ++ [g]) -> exists q s, s < up cnt r (n + 1) q /\ slot t q s = h).
    { intros h Hh. apply in_app_or in Hh. destruct Hh as [Hh|[<-|[]]].
      - destruct (ALL h Hh) as [q [s [Hs E]]]. exists q, s. destruct (Nat.eq_dec q r) as [->|N].
        + rewrite up_eq. split; [lia|]. rewrite SW1 by (right; lia). exact E.
        + rewrite up_neq by exact N. split; [exact Hs|]. rewrite SW1 by (left; exact N). exact E.
      - exists r, n. rewrite up_eq. split; [lia|exact SN]. }
    assert (SEL' : forall q, r0 <= q < row l -> forall m, sel t m q = match m with GATE => f1 | _ => f0 end) by (intros; rewrite SW5; apply SEL; assumption).
    assert (FR' : forall q, ~ (r0 <= q < row l) -> (forall c, sm t c q = sm t0 c q) /\ (forall c, cm t c q = cm t0 c q) /\ (forall m, sel t m q = sel t0 m q)).
    { intros q Hq. destruct (FR q Hq) as [A [B C]]. rewrite SW4, SW5. repeat split; auto. intros c. rewrite SW3 by (intros ->; contradiction). apply A. }
    assert (PNEQ : forall k q m, In (k, (q, m)) (premove (str_key g) (partial l)) -> q <> r).
    { intros k q m Hi ->. apply in_premove in Hi. destruct Hi as [Hi Hneq]. destruct (PAR _ _ _ Hi) as [Em [_ Hkm]].
      apply Hneq. cbn [fst]. rewrite <- Hkm, <- Hk. f_equal. f_equal. lia. }
    exists (up cnt r (n + 1)). destruct Hn as [-> | ->]; cbn [Nat.add Nat.eqb] in H; injection H as <-; constructor; cbn [tb row partial half]; auto.
    + intros q Hq. destruct (Nat.eq_dec q r) as [->|N]; [rewrite up_eq; lia|rewrite up_neq by exact N; apply IN, Hq].
    + intros q Hq. rewrite up_neq by (intros ->; contradiction). apply OUT, Hq.
    + intros k q m Hi. pose proof (PNEQ k q m Hi) as N. apply in_premove in Hi. destruct Hi as [Hi _].
      destruct (PAR _ _ _ Hi) as [A [B C]]. rewrite up_neq by exact N. rewrite SW1 by (left; exact N). auto.
    + apply NoDup_map_filter, PND.
    + intros q m Hi. apply in_app_or in Hi. destruct Hi as [Hi|[[= <- <-]|[]]].
      * destruct (HF q m Hi) as [A B]. split; [exact A|]. rewrite up_neq; [exact B|intros ->; lia].
      * rewrite up_eq. lia.
    + rewrite map_app. cbn. apply NoDup_snoc; [exact HND|]. intros X. apply in_map_iff in X. destruct X as [[q m] [E X]]. cbn in E. subst q.
      destruct (HF r m X). lia.
    + intros q Hq. destruct (Nat.eq_dec q r) as [->|N]; [rewrite up_eq in Hq; lia|]. rewrite up_neq in * by exact N.
      destruct (ODD q Hq) as [k Hk']. exists k. apply in_premove. split; [exact Hk'|]. cbn [fst]. intros ->.
      pose proof (NoDup_map_inj fst _ _ _ PND Hk' EP eq_refl) as X. congruence.
    + intros q Hq. apply in_or_app. destruct (Nat.eq_dec q r) as [->|N]; [right; left; reflexivity|]. rewrite up_neq in Hq by exact N. left. apply TWO, Hq.
    + intros q Hq. destruct (Nat.eq_dec q r) as [->|N]; [rewrite up_eq; lia|rewrite up_neq by exact N; apply IN, Hq].
    + intros q Hq. rewrite up_neq by (intros ->; contradiction). apply OUT, Hq.
    + intros k q m Hi. pose proof (PNEQ k q m Hi) as N. apply in_premove in Hi. destruct Hi as [Hi _].
      destruct (PAR _ _ _ Hi) as [A [B C]]. rewrite up_neq by exact N. rewrite SW1 by (left; exact N). auto.
    + apply NoDup_map_filter, PND.
    + intros q m Hi. destruct (HF q m Hi) as [A B]. split; [exact A|]. rewrite up_neq; [exact B|intros ->; lia].
    + intros q Hq. destruct (Nat.eq_dec q r) as [->|N]; [rewrite up_eq in Hq; lia|]. rewrite up_neq in * by exact N.
      destruct (ODD q Hq) as [k Hk']. exists k. apply in_premove. split; [exact Hk'|]. cbn [fst]. intros ->.
      pose proof (NoDup_map_inj fst _ _ _ PND Hk' EP eq_refl) as X. congruence.
    + intros q Hq. destruct (Nat.eq_dec q r) as [->|N]; [rewrite up_eq in Hq; lia|]. rewrite up_neq in Hq by exact N. apply TWO, Hq.
  - apply pget_none in EP. destruct (half l) as [|[r n] hs] eqn:EH.
    + (* a new row *)
      destruct (set_cs d (row l) (consts 0 g) (tb l)) as [t1| | |] eqn:E1; cbn [bind] in H; try discriminate.
      destruct (set_sels d (row l) _ t1) as [t2| | |] eqn:E2; cbn [bind] in H; try discriminate.
      destruct (set_ss d (row l) _ t2) as [t| | |] eqn:E3; cbn [bind] in H; try discriminate. injection H as <-.
      apply set_cs_inv in E1. destruct E1 as [_ [A1 [B1 C1]]]. apply set_sels_inv in E2. destruct E2 as [_ [A2 [B2 C2]]].
      change [(0, g_sl g); (1, g_sr g); (2, g_so g)] with [(0 * 3, g_sl g); (0 * 3 + 1, g_sr g); (0 * 3 + 2, g_so g)] in E3.
      apply slot_write in E3. destruct E3 as [SW1 [SW2 [SW3 [SW4 SW5]]]].
      assert (C0 : cnt (row l) = 0) by (apply OUT; lia).
      assert (SAME : forall q s, q <> row l -> slot t q s = slot (tb l) q s).
      { intros q s N. rewrite SW1 by (left; exact N). apply slot_ext; intros c; [rewrite A2, A1; reflexivity|].
        rewrite B2, C1. destruct (Nat.eqb_spec q (row l)); [contradiction|reflexivity]. }
      assert (SN : slot t (row l) 0 = g).
      { apply SW2. unfold slot, str_key. cbn [g_qm g_ql g_qr g_qo g_qc Nat.ltb Nat.leb]. rewrite B2, !C1, Nat.eqb_refl. reflexivity. }
      assert (NQ : forall q, cnt q <> 0 -> q <> row l) by (intros q Hq ->; lia).
      exists (up cnt (row l) 1). constructor; cbn [tb row partial half].
      * lia.
      * intros q Hq. destruct (Nat.eq_dec q (row l)) as [->|N]; [rewrite up_eq; lia|rewrite up_neq by exact N; apply IN; lia].
      * intros q Hq. rewrite up_neq by lia. apply OUT. lia.
      * intros k q m Hi. apply in_app_or in Hi. destruct Hi as [Hi|[[= <- <- <-]|[]]].
        -- destruct (PAR _ _ _ Hi) as [A [B C]]. assert (N : q <> row l) by (apply NQ; lia). rewrite up_neq by exact N. rewrite SAME by exact N. auto.
        -- rewrite up_eq. cbn [Nat.sub]. rewrite SN. auto.
      * rewrite map_app. cbn. apply NoDup_snoc; [exact PND|exact EP].
      * intros q m [].
      * constructor.
      * intros q Hq. destruct (Nat.eq_dec q (row l)) as [->|N].
        -- exists (str_key g). rewrite up_eq. apply in_or_app. right. left. reflexivity.
        -- rewrite up_neq in * by exact N. destruct (ODD q Hq) as [k Hk]. exists k. apply in_or_app. left. exact Hk.
      * intros q Hq. destruct (Nat.eq_dec q (row l)) as [->|N]; [rewrite up_eq in Hq; lia|]. rewrite up_neq in Hq by exact N. apply TWO, Hq.
      * intros q s Hs. apply in_or_app. destruct (Nat.eq_dec q (row l)) as [->|N].
        -- rewrite up_eq in Hs. replace s with 0 by lia. rewrite SN. right. left. reflexivity.
        -- rewrite up_neq in Hs by exact N. rewrite SAME by exact N. left. apply USED, Hs.
      * intros h Hh. apply in_app_or in Hh. destruct Hh as [Hh|[<-|[]]].
        -- destruct (ALL h Hh) as [q [s [Hs E]]]. exists q, s. assert (N : q <> row l) by (apply NQ; lia). rewrite up_neq by exact N. rewrite SAME by exact N. auto.
        -- exists (row l), 0. rewrite up_eq. split; [lia|exact SN].
      * intros q Hq m. rewrite SW5, C2. destruct (Nat.eqb_spec q (row l)) as [->|N]; [unfold slast; destruct m; reflexivity|].
        rewrite B1. apply SEL. lia.
      * intros q Hq. destruct (FR q) as [A [B C]]; [lia|]. assert (N : q <> row l) by lia. rewrite SW4, SW5. split; [|split].
        -- intros c. rewrite SW3 by exact N. rewrite A2, A1. apply A.
        -- intros c. rewrite B2, C1. destruct (Nat.eqb_spec q (row l)); [contradiction|]. apply B.
        -- intros m. rewrite C2. destruct (Nat.eqb_spec q (row l)); [contradiction|]. rewrite B1. apply C.
    + (* the second half of a row *)
      destruct (set_cs d r (consts 6 g) (tb l)) as [t1| | |] eqn:E1; cbn [bind] in H; try discriminate.
      destruct (set_ss d r _ t1) as [t| | |] eqn:E3; cbn [bind] in H; try discriminate. injection H as <-.
      destruct (HF r n) as [-> C2]; [left; reflexivity|].
      assert (RNG : r0 <= r < row l). { destruct (Nat.leb_spec r0 r); destruct (Nat.ltb_spec r (row l)); try lia; rewrite OUT in C2; lia. }
      apply set_cs_inv in E1. destruct E1 as [_ [A1 [B1 C1]]].
      apply slot_write in E3. destruct E3 as [SW1 [SW2 [SW3 [SW4 SW5]]]].
      assert (SAME : forall q s, q <> r -> slot t q s = slot (tb l) q s).
      { intros q s N. rewrite SW1 by (left; exact N). apply slot_ext; intros c; [rewrite A1; reflexivity|].
        rewrite C1. destruct (Nat.eqb_spec q r); [contradiction|reflexivity]. }
      assert (SAME2 : forall s, s < 2 -> slot t r s = slot (tb l) r s).
      { intros s Hs. rewrite SW1 by (right; lia). unfold slot. rewrite A1, !C1, Nat.eqb_refl. destruct s as [|[|s]]; [reflexivity|reflexivity|lia]. }
      assert (SN : slot t r 2 = g).
      { apply SW2. unfold slot, str_key. cbn [g_qm g_ql g_qr g_qo g_qc Nat.ltb Nat.leb]. rewrite !C1, Nat.eqb_refl. reflexivity. }
      exists (up cnt r 3). constructor; cbn [tb row partial half]; auto.
      * intros q Hq. destruct (Nat.eq_dec q r) as [->|N]; [rewrite up_eq; lia|rewrite up_neq by exact N; apply IN, Hq].
      * intros q Hq. rewrite up_neq by (intros ->; contradiction). apply OUT, Hq.
      * intros k q m Hi. apply in_app_or in Hi. destruct Hi as [Hi|[[= <- <- <-]|[]]].
        -- destruct (PAR _ _ _ Hi) as [A [B C]]. assert (N : q <> r) by (intros ->; lia). rewrite up_neq by exact N. rewrite SAME by exact N. auto.
        -- rewrite up_eq. cbn [Nat.sub Nat.add]. rewrite SN. auto.
      * rewrite map_app. cbn. apply NoDup_snoc; [exact PND|exact EP].
      * intros q m Hi. destruct (HF q m) as [A B]; [right; exact Hi|]. split; [exact A|]. rewrite up_neq; [exact B|]. intros ->.
        cbn [map fst] in HND. inversion HND; subst. apply H1. apply in_map_iff. exists (r, 2). split; [reflexivity|exact Hi].
      * cbn [map] in HND. inversion HND; assumption.
      * intros q Hq. destruct (Nat.eq_dec q r) as [->|N].
        -- exists (str_key g). rewrite up_eq. apply in_or_app. right. left. reflexivity.
        -- rewrite up_neq in * by exact N. destruct (ODD q Hq) as [k Hk]. exists k. apply in_or_app. left. exact Hk.
      * intros q Hq. destruct (Nat.eq_dec q r) as [->|N]; [rewrite up_eq in Hq; lia|]. rewrite up_neq in Hq by exact N.
        destruct (TWO q Hq) as [[= <-]|X]; [contradiction|exact X].
      * intros q s Hs. apply in_or_app. destruct (Nat.eq_dec q r) as [->|N].
        -- rewrite up_eq in Hs. destruct (Nat.eq_dec s 2) as [->|N2]; [rewrite SN; right; left; reflexivity|]. rewrite SAME2 by lia. left. apply USED. lia.
        -- rewrite up_neq in Hs by exact N. rewrite SAME by exact N. left. apply USED, Hs.
      * intros h Hh. apply in_app_or in Hh. destruct Hh as [Hh|[<-|[]]].
        -- destruct (ALL h Hh) as [q [s [Hs E]]]. exists q, s. destruct (Nat.eq_dec q r) as [->|N].
           ++ rewrite up_eq. split; [lia|]. rewrite SAME2 by lia. exact E.
           ++ rewrite up_neq by exact N. rewrite SAME by exact N. auto.
        -- exists r, 2. rewrite up_eq. split; [lia|exact SN].
      * intros q Hq m. rewrite SW5, B1. apply SEL, Hq.
      * intros q Hq. destruct (FR q Hq) as [A [B C]]. assert (N : q <> r) by (intros ->; contradiction). rewrite SW4, SW5. split; [|split].
        -- intros c. rewrite SW3 by exact N. rewrite A1. apply A.
        -- intros c. rewrite C1. destruct (Nat.eqb_spec q r); [contradiction|]. apply B.
        -- intros m. rewrite B1. apply C.
Qed.

Lemma place_fold d r0 t0 gs : forall done l cnt l', inv r0 t0 done l cnt -> foldM (place d) gs l = Ok l' ->
  exists cnt', inv r0 t0 (done ++ gs) l' cnt'.
Proof.
  induction gs as [|g gs IH]; intros done l cnt l' I H; cbn [foldM] in H.
  - injection H as <-. rewrite app_nil_r. eauto.
  - destruct (place d l g) as [l1| | |] eqn:E; cbn [bind] in H; try discriminate.
    destruct (place_step _ _ _ _ _ _ _ _ I E) as [c1 I1]. destruct (IH _ _ _ _ I1 H) as [c2 I2].
    rewrite <- app_assoc in I2. eauto.
Qed.

Lemma inv_init t0 r0 : inv r0 t0 [] (mkL t0 r0 [] []) (fun _ => 0).
Proof. constructor; cbn; intros; try lia; try contradiction; try constructor; auto. Qed.

(* ---- termination ---- *)
Definition erow (e : key * parrow) : nat := fst (snd e).
Definition copied (n c : nat) : bool := ((n =? 1) && ((3 <=? c) && (c <? 6))) || ((n =? 3) && ((9 <=? c) && (c <? 12))).

Lemma terminate_step d t h k r n t' h' : terminate_one d (t, h) (k, (r, n)) = Ok (t', h') ->
  (n = 1 \/ n = 3) /\ cm t' = cm t /\ sel t' = sel t /\ (forall c q, sm t' c q = if (q =? r) && copied n c then sm t (c - 3) q else sm t c q) /\
  h' = h ++ (if n =? 1 then [(r, 2)] else []).
Proof.
  unfold terminate_one. destruct (Nat.eqb_spec n 1) as [->|N1].
  - destruct (set_ss d r _ t) as [t1| | |] eqn:E; cbn [bind]; try discriminate. intros [=]. subst t1 h'.
    apply set_ss_inv in E. destruct E as [_ [A [B C]]]. split; [auto|]. split; [exact A|]. split; [exact B|]. split; [|reflexivity].
    intros c q. rewrite C. destruct (Nat.eqb_spec q r) as [->|]; cbn [andb]; [|reflexivity].
    do 12 (destruct c as [|c]; [reflexivity|]). reflexivity.
  - destruct (Nat.eqb_spec n 3) as [->|N3]; [|discriminate].
    destruct (set_ss d r _ t) as [t1| | |] eqn:E; cbn [bind]; try discriminate. intros [=]. subst t1 h'.
    apply set_ss_inv in E. destruct E as [_ [A [B C]]]. split; [auto|]. split; [exact A|]. split; [exact B|]. split; [|rewrite app_nil_r; reflexivity].
    intros c q. rewrite C. destruct (Nat.eqb_spec q r) as [->|]; cbn [andb]; [|reflexivity].
    do 12 (destruct c as [|c]; [reflexivity|]). reflexivity.
Qed.

Lemma terminate_fold d L : forall t h t' h', NoDup (map erow L) -> foldM (terminate_one d) L (t, h) = Ok (t', h') ->
  cm t' = cm t /\ sel t' = sel t /\
  (forall q, ~ In q (map erow L) -> forall c, sm t' c q = sm t c q) /\
  (forall k q n, In (k, (q, n)) L -> forall c, sm t' c q = if copied n c then sm t (c - 3) q else sm t c q) /\
  (forall q m, In (q, m) h' <-> In (q, m) h \/ m = 2 /\ exists k, In (k, (q, 1)) L).
Proof.
  induction L as [|[k [r n]] L IH]; intros t h t' h' ND H; cbn [foldM] in H.
  - injection H as <- <-. repeat split; auto; [intros; contradiction|]. intros [X|[_ [k []]]]; exact X.
  - destruct (terminate_one d (t, h) (k, (r, n))) as [[t1 h1]| | |] eqn:E; unfold parrow in *; rewrite E in H; cbn [bind] in H; try discriminate.
    apply terminate_step in E. destruct E as [Hn [A [B [C D]]]]. cbn [map] in ND. change (erow (k, (r, n))) with r in ND. inversion ND as [|? ? N1 N2]; subst.
    destruct (IH _ _ _ _ N2 H) as [A' [B' [C' [D' E']]]]. split; [congruence|]. split; [congruence|]. split; [|split].
    + intros q Hq c. cbn [map] in Hq. change (erow (k, (r, n))) with r in Hq. rewrite C' by (intros X; apply Hq; right; exact X). rewrite C.
      destruct (Nat.eqb_spec q r) as [->|]; [exfalso; apply Hq; left; reflexivity|reflexivity].
    + intros k' q m [[= -> -> ->]|Hi] c.
      * rewrite C' by exact N1. rewrite C, Nat.eqb_refl. reflexivity.
      * assert (N : q <> r). { intros ->. apply N1. apply in_map_iff. exists (k', (r, m)). auto. }
        rewrite (D' _ _ _ Hi). rewrite !C. destruct (Nat.eqb_spec q r); [contradiction|reflexivity].
    + intros q m. rewrite E'. split.
      * intros [X|[-> [k' X]]]; [|right; split; [reflexivity|]; exists k'; right; exact X].
        apply in_app_or in X. destruct X as [X|X]; [left; exact X|]. destruct (Nat.eqb_spec n 1) as [->|]; [|contradiction].
        destruct X as [[= -> ->]|[]]. right. split; [reflexivity|]. exists k. left. reflexivity.
      * intros [X|[-> [k' [[= -> -> ->]|X]]]]; [left; apply in_or_app; left; exact X| |right; split; [reflexivity|]; exists k'; exact X].
        left. apply in_or_app. right. left. reflexivity.
Qed.

Definition cleared (c : nat) : bool := (6 <=? c) && (c <? 12).
Lemma clear_fold d h : forall t t', foldM (clear_half d) h t = Ok t' ->
  sel t' = sel t /\
  (forall q, ~ In q (map fst h) -> forall c, sm t' c q = sm t c q /\ cm t' c q = cm t c q) /\
  (forall q, In q (map fst h) -> forall c, sm t' c q = (if cleared c then 0 else sm t c q) /\ cm t' c q = (if cleared c then f0 else cm t c q)).
Proof.
  induction h as [|[r m] h IH]; intros t t' H; cbn [foldM] in H.
  - injection H as <-. repeat split; intros; contradiction.
  - destruct (clear_half d t (r, m)) as [t1| | |] eqn:E; cbn [bind] in H; try discriminate.
    unfold clear_half in E. cbn [fst] in E. destruct (set_ss d r _ t) as [t2| | |] eqn:E2; cbn [bind] in E; try discriminate.
    apply set_ss_inv in E2. destruct E2 as [_ [A [B C]]]. apply set_cs_inv in E. destruct E as [_ [A1 [B1 C1]]].
    assert (T1 : forall c q, sm t1 c q = (if (q =? r) && cleared c then 0 else sm t c q) /\ cm t1 c q = (if (q =? r) && cleared c then f0 else cm t c q)).
    { intros c q. rewrite A1, C, C1, A. destruct (Nat.eqb_spec q r); cbn [andb]; [|auto]. do 12 (destruct c as [|c]; [split; reflexivity|]). split; reflexivity. }
    destruct (IH _ _ H) as [A' [B' C']]. split; [congruence|]. cbn [map fst]. split.
    + intros q Hq c. destruct (B' q) with (c := c) as [X Y]; [intros X; apply Hq; right; exact X|].
      destruct (T1 c q) as [X1 Y1]. rewrite X, Y, X1, Y1. destruct (Nat.eqb_spec q r) as [->|]; [exfalso; apply Hq; left; reflexivity|]. split; reflexivity.
    + intros q Hq c. destruct (T1 c q) as [X1 Y1]. destruct (in_dec Nat.eq_dec q (map fst h)) as [Hi|Hi].
      * destruct (C' q Hi c) as [X Y]. rewrite X, Y, X1, Y1. destruct ((q =? r)); cbn [andb]; destruct (cleared c); split; reflexivity.
      * destruct Hq as [<-|Hq]; [|contradiction]. destruct (B' r Hi c) as [X Y]. rewrite X, Y, X1, Y1, Nat.eqb_refl. split; reflexivity.
Qed.

Section Order.
  Variable order : partials -> partials.
  Hypothesis order_perm : forall l, Permutation (order l) l.

  Theorem place_gates_ok d gs t0 r0 t r : place_gates order d gs t0 r0 = Ok (t, r) ->
    r0 <= r /\
    (forall q, ~ (r0 <= q < r) -> (forall c, sm t c q = sm t0 c q) /\ (forall c, cm t c q = cm t0 c q) /\ (forall n, sel t n q = sel t0 n q)) /\
    (forall q, r0 <= q < r -> forall n, sel t n q = match n with GATE => f1 | _ => f0 end) /\
    (forall q s, r0 <= q < r -> s < 4 -> In (slot t q s) gs \/ slot t q s = empty_gate) /\
    (forall g, In g gs -> exists q s, r0 <= q < r /\ s < 4 /\ slot t q s = g).
  Proof.
    unfold place_gates. intros H.
    destruct (foldM (place d) gs _) as [l| | |] eqn:E1; cbn [bind] in H; try discriminate.
    destruct (foldM (terminate_one d) _ _) as [[t1 h]| | |] eqn:E2; cbn [bind] in H; try discriminate.
    destruct (foldM (clear_half d) h t1) as [t2| | |] eqn:E3; cbn [bind] in H; try discriminate. injection H as -> <-.
    destruct (place_fold _ _ _ _ _ _ _ _ (inv_init t0 r0) E1) as [cnt I]. cbn [app] in I.
    destruct I as [LOW IN OUT PAR PND HF HND ODD TWO USED ALL SEL FR].
    assert (INO : forall e, In e (order (partial l)) <-> In e (partial l)).
    { intros e. split; apply Permutation_in; [apply order_perm|apply Permutation_sym, order_perm]. }
    assert (RND : NoDup (map erow (order (partial l)))).
    { apply (Permutation_NoDup (l := map erow (partial l))); [apply Permutation_map, Permutation_sym, order_perm|].
      clear - PAR PND. induction (partial l) as [|[k [q n]] p IH]; cbn [map]; [constructor|]. inversion PND; subst. constructor.
      - intros X. apply in_map_iff in X. destruct X as [[k' [q' n']] [E X]]. unfold erow in E. cbn in E. subst q'.
        destruct (PAR k q n) as [A [_ C]]; [left; reflexivity|]. destruct (PAR k' q n') as [A' [_ C']]; [right; exact X|].
        apply H1. cbn [fst]. rewrite <- C, A, <- A', C'. apply (in_map fst) in X. exact X.
      - apply IH; [intros; apply PAR; right; assumption|assumption]. }
    apply terminate_fold in E2; [|exact RND]. destruct E2 as [T1 [T2 [T3 [T4 T5]]]]. apply clear_fold in E3. destruct E3 as [C1 [C2 C3]].
    assert (CR : forall q, cnt q <> 0 -> r0 <= q < row l).
    { intros q Hq. destruct (Nat.leb_spec r0 q); destruct (Nat.ltb_spec q (row l)); try lia; exfalso; apply Hq, OUT; lia. }
    assert (HH : forall q, In q (map fst h) <-> cnt q = 1 \/ cnt q = 2).
    { intros q. rewrite in_map_iff. split.
      - intros [[q' m] [<- X]]. cbn [fst]. apply T5 in X. destruct X as [X|[-> [k X]]]; [right; apply (HF _ _ X)|].
        apply INO in X. left. symmetry. apply (PAR _ _ _ X).
      - intros [X|X]; exists (q, 2); (split; [reflexivity|]); apply T5.
        + right. split; [reflexivity|]. destruct (ODD q) as [k Y]; [auto|]. exists k. apply INO. rewrite X in Y. exact Y.
        + left. apply TWO, X. }
    assert (PR : forall q, In q (map erow (order (partial l))) -> cnt q = 1 \/ cnt q = 3).
    { intros q X. apply in_map_iff in X. destruct X as [[k [q' n]] [E X]]. unfold erow in E. cbn in E. subst q'. apply INO in X.
      destruct (PAR _ _ _ X) as [-> [Y _]]. exact Y. }
    assert (V1 : forall q, cnt q = 1 -> forall c, sm t c q = (if cleared c then 0 else if copied 1 c then sm (tb l) (c - 3) q else sm (tb l) c q) /\ cm t c q = if cleared c then f0 else cm (tb l) c q).
    { intros q X c. destruct (C3 q) with (c := c) as [A B]; [apply HH; auto|]. rewrite A, B, T1. destruct (ODD q) as [k Y]; [auto|]. rewrite X in Y. apply INO in Y.
      rewrite (T4 _ _ _ Y). auto. }
    assert (V2 : forall q, cnt q = 2 -> forall c, sm t c q = (if cleared c then 0 else sm (tb l) c q) /\ cm t c q = if cleared c then f0 else cm (tb l) c q).
    { intros q X c. destruct (C3 q) with (c := c) as [A B]; [apply HH; auto|]. rewrite A, B, T1. rewrite T3; [auto|]. intros Y. apply PR in Y. lia. }
    assert (V3 : forall q, cnt q = 3 -> forall c, sm t c q = (if copied 3 c then sm (tb l) (c - 3) q else sm (tb l) c q) /\ cm t c q = cm (tb l) c q).
    { intros q X c. destruct (C2 q) with (c := c) as [A B]; [rewrite HH; lia|]. rewrite A, B, T1. destruct (ODD q) as [k Y]; [auto|]. rewrite X in Y. apply INO in Y.
      rewrite (T4 _ _ _ Y). auto. }
    assert (V4 : forall q, cnt q <> 1 -> cnt q <> 2 -> cnt q <> 3 -> forall c, sm t c q = sm (tb l) c q /\ cm t c q = cm (tb l) c q).
    { intros q X1 X2 X3 c. destruct (C2 q) with (c := c) as [A B]; [rewrite HH; lia|]. rewrite A, B, T1. rewrite T3; [auto|]. intros Y. apply PR in Y. lia. }
    assert (SL : forall q s, s < cnt q -> slot t q s = slot (tb l) q s).
    { intros q s Hs. assert (B : 1 <= cnt q <= 4) by (apply IN, CR; lia).
      assert (CS : cnt q = 1 \/ cnt q = 2 \/ cnt q = 3 \/ cnt q = 4) by lia.
      destruct CS as [E|[E|[E|E]]]; rewrite E in Hs; unfold slot.
      - replace s with 0 by lia. rewrite !(fun c => proj1 (V1 q E c)), !(fun c => proj2 (V1 q E c)). reflexivity.
      - rewrite !(fun c => proj1 (V2 q E c)), !(fun c => proj2 (V2 q E c)). destruct s as [|[|s]]; [reflexivity|reflexivity|lia].
      - rewrite !(fun c => proj1 (V3 q E c)), !(fun c => proj2 (V3 q E c)). destruct s as [|[|[|s]]]; [reflexivity|reflexivity|reflexivity|lia].
      - assert (V := V4 q ltac:(lia) ltac:(lia) ltac:(lia)). rewrite !(fun c => proj1 (V c)), !(fun c => proj2 (V c)). reflexivity. }
    split; [exact LOW|]. split; [|split; [|split]].
    - intros q Hq. pose proof (OUT q Hq) as Z. destruct (FR q Hq) as [A [B C]]. assert (V := V4 q ltac:(lia) ltac:(lia) ltac:(lia)).
      repeat split; intros; [rewrite (proj1 (V c)); apply A|rewrite (proj2 (V c)); apply B|]. rewrite C1, T2. apply C.
    - intros q Hq n. rewrite C1, T2. apply SEL, Hq.
    - intros q s Hq Hs. destruct (Nat.ltb_spec s (cnt q)) as [L|L]; [left; rewrite SL by exact L; apply USED, L|].
      pose proof (IN q Hq) as B. assert (CS : cnt q = 1 \/ cnt q = 2 \/ cnt q = 3) by lia. destruct CS as [E|[E|E]]; rewrite E in L.
      + destruct (Nat.eq_dec s 1) as [->|N].
        * left. assert (X : slot t q 1 = slot (tb l) q 0).
          { unfold slot. rewrite !(fun c => proj1 (V1 q E c)), !(fun c => proj2 (V1 q E c)). reflexivity. }
          rewrite X. apply USED. lia.
        * right. unfold slot. rewrite !(fun c => proj1 (V1 q E c)), !(fun c => proj2 (V1 q E c)). destruct s as [|[|[|[|s]]]]; try lia; reflexivity.
      + right. unfold slot. rewrite !(fun c => proj1 (V2 q E c)), !(fun c => proj2 (V2 q E c)). destruct s as [|[|[|[|s]]]]; try lia; reflexivity.
      + left. replace s with 3 by lia. assert (X : slot t q 3 = slot (tb l) q 2).
        { unfold slot. rewrite !(fun c => proj1 (V3 q E c)), !(fun c => proj2 (V3 q E c)). reflexivity. }
        rewrite X. apply USED. lia.
    - intros g Hg. destruct (ALL g Hg) as [q [s [Hs E]]]. exists q, s. pose proof (CR q ltac:(lia)) as R. pose proof (IN q R).
      split; [exact R|]. split; [lia|]. rewrite SL by exact Hs. exact E.
  Qed.
End Order.
