(* The PLONK gates generated by r1cs2plonk against the R1CS they come from. *)
From Verif Require Import Base ListAux GlModel FrField Cubic PlonkModel.
From Coq Require Import Field ListDec.
Open Scope nat_scope.
Add Field FrFP : Fr_field.

Infix "+'" := fadd (at level 50, left associativity).
Infix "*'" := fmul (at level 40, left associativity).

(* value of a linear combination; wire 0 carries the constant one *)
Fixpoint lceval (W : nat -> Fr) (lc : list (nat * Fr)) : Fr :=
  match lc with [] => f0 | (k, v) :: r => v *' W k +' lceval W r end.

Definition r1cs_ok (W : nat -> Fr) (c : constraint) : Prop :=
  let '(a, b, c) := c in lceval W a *' lceval W b = lceval W c.

Definition gate_ok (W : nat -> Fr) (g : PlonkGate) : Prop :=
  g_qm g *' W (g_sl g) *' W (g_sr g) +' g_ql g *' W (g_sl g) +' g_qr g *' W (g_sr g) +' g_qo g *' W (g_so g) +' g_qc g = f0.

(* auxiliary wires n, n+1, ... carry the values defined by the additions *)
Fixpoint add_eqs (W : nat -> Fr) (n : nat) (A : list PlonkAdd) : Prop :=
  match A with
  | [] => True
  | a :: r => W n = W (p_sl a) *' p_kl a +' W (p_sr a) *' p_kr a /\ add_eqs W (S n) r
  end.
Fixpoint adds_in (n : nat) (A : list PlonkAdd) : Prop :=
  match A with [] => True | a :: r => p_sl a < n /\ p_sr a < n /\ adds_in (S n) r end.

Lemma lceval_app W a b : lceval W (a ++ b) = lceval W a +' lceval W b.
Proof. induction a as [|[k v] a IH]; cbn [lceval app]; [ring|]. rewrite IH. ring. Qed.
Lemma add_eqs_app W n A B : add_eqs W n (A ++ B) <-> add_eqs W n A /\ add_eqs W (n + length A) B.
Proof.
  revert n. induction A as [|a A IH]; intros n; cbn [app add_eqs length].
  - rewrite Nat.add_0_r. tauto.
  - rewrite IH. replace (S n + length A) with (n + S (length A)) by lia. tauto.
Qed.
Lemma adds_in_app n A B : adds_in n (A ++ B) <-> adds_in n A /\ adds_in (n + length A) B.
Proof.
  revert n. induction A as [|a A IH]; intros n; cbn [app adds_in length].
  - rewrite Nat.add_0_r. tauto.
  - rewrite IH. replace (S n + length A) with (n + S (length A)) by lia. tauto.
Qed.
Lemma Forall_sing {A} (Q : A -> Prop) x : Forall Q [x] <-> Q x.
Proof. split; intros H; [inversion H; assumption|constructor; auto]. Qed.

(* ---- maps ---- *)
Fixpoint srt (m : bmap) : Prop :=
  match m with [] => True | (k, _) :: r => Forall (fun kv => k < fst kv) r /\ srt r end.

Lemma bget_in k m v : bget k m = Some v -> In (k, v) m.
Proof.
  induction m as [|[k' v'] m IH]; cbn; [discriminate|]. destruct (Nat.eqb_spec k k') as [->|N].
  - intros [= ->]. auto.
  - auto.
Qed.
Lemma bget_none k m : bget k m = None -> Forall (fun kv => fst kv <> k) m.
Proof.
  induction m as [|[k' v'] m IH]; cbn; [constructor|]. destruct (Nat.eqb_spec k k') as [->|N]; [discriminate|].
  intros H. constructor; [cbn; congruence|auto].
Qed.

Lemma bins_Forall (Q : nat * Fr -> Prop) k v m : Q (k, v) -> Forall Q m -> Forall Q (bins k v m).
Proof.
  intros Hq. induction m as [|[k' v'] m IH]; intros H; cbn [bins]; [constructor; auto|].
  inversion H; subst. destruct (k <? k'); [constructor; auto|]. destruct (k =? k'); constructor; auto.
Qed.

Lemma bins_srt k v m : srt m -> srt (bins k v m).
Proof.
  induction m as [|[k' v'] m IH]; intros H; cbn [bins]; [split; auto|].
  destruct H as [H1 H2]. destruct (Nat.ltb_spec k k').
  - cbn [srt]. repeat split; auto. constructor; [exact H|]. eapply Forall_impl; [|exact H1]. cbn. intros. lia.
  - destruct (Nat.eqb_spec k k') as [->|N]; cbn [srt]; [auto|]. split; [|auto].
    apply bins_Forall; [cbn; lia|exact H1].
Qed.

Lemma bins_eval W k v m : srt m ->
  lceval W (bins k v m) +' (match bget k m with Some o => o | None => f0 end) *' W k = lceval W m +' v *' W k.
Proof.
  induction m as [|[k' v'] m IH]; intros H; cbn [bins bget]; [cbn [lceval]; ring|].
  destruct H as [H1 H2]. destruct (Nat.eqb_spec k k') as [->|N].
  - rewrite Nat.ltb_irrefl. cbn [lceval]. ring.
  - destruct (Nat.ltb_spec k k') as [L|L]; cbn [lceval].
    + destruct (bget k m) eqn:E; [|ring]. exfalso. apply bget_in in E.
      rewrite Forall_forall in H1. apply H1 in E. cbn in E. lia.
    + specialize (IH H2). 
      transitivity (v' *' W k' +' (lceval W (bins k v m) +' (match bget k m with Some o => o | None => f0 end) *' W k)); [ring|].
      rewrite IH. ring.
Qed.

Lemma add_entry_eval W m k v : srt m -> lceval W (add_entry m k v) = lceval W m +' v *' W k.
Proof.
  intros H. unfold add_entry. destruct (bget k m) as [o|] eqn:E.
  - pose proof (bins_eval W k (v +' o) m H) as B. rewrite E in B.
    transitivity (lceval W (bins k (v +' o) m) +' o *' W k +' fneg (o *' W k)); [ring|]. rewrite B. ring.
  - pose proof (bins_eval W k v m H) as B. rewrite E in B.
    transitivity (lceval W (bins k v m) +' f0 *' W k); [ring|]. exact B.
Qed.
Lemma add_entry_srt m k v : srt m -> srt (add_entry m k v).
Proof. intros H. unfold add_entry. destruct (bget k m); apply bins_srt; exact H. Qed.
Lemma add_entry_Forall (Q : nat -> Prop) m k v : Q k -> Forall (fun kv => Q (fst kv)) m -> Forall (fun kv => Q (fst kv)) (add_entry m k v).
Proof. intros H. unfold add_entry. destruct (bget k m); apply bins_Forall; exact H. Qed.

Lemma normalize_eval W m : lceval W (normalize m) = lceval W m.
Proof.
  induction m as [|[k v] m IH]; cbn [normalize filter lceval snd]; [reflexivity|].
  destruct (feqb v f0) eqn:E; cbn [negb].
  - apply feqb_eq in E. subst v. fold (normalize m). rewrite IH. ring.
  - cbn [lceval]. fold (normalize m). rewrite IH. reflexivity.
Qed.
Lemma normalize_Forall (Q : nat * Fr -> Prop) m : Forall Q m -> Forall Q (normalize m).
Proof. intros H. apply Forall_forall. intros x Hx. apply filter_In in Hx. rewrite Forall_forall in H. apply H, Hx. Qed.
Lemma normalize_srt m : srt m -> srt (normalize m).
Proof.
  induction m as [|[k v] m IH]; intros H; cbn [normalize filter]; [exact I|]. destruct H as [H1 H2].
  destruct (negb _); [|apply IH; exact H2]. split; [|apply IH; exact H2]. apply normalize_Forall. exact H1.
Qed.
Lemma normalize_nz m : Forall (fun kv => snd kv <> f0) (normalize m).
Proof.
  apply Forall_forall. intros x Hx. apply filter_In in Hx. destruct Hx as [_ Hx]. intros E. rewrite E in Hx.
  rewrite (proj2 (feqb_eq f0 f0) eq_refl) in Hx. discriminate.
Qed.

Lemma fold_add_eval W (f : Fr -> Fr) l : forall m, srt m ->
  let r := fold_left (fun res kv => add_entry res (fst kv) (f (snd kv))) l m in
  srt r /\ lceval W r = lceval W m +' lceval W (map (fun kv => (fst kv, f (snd kv))) l).
Proof.
  induction l as [|[k v] l IH]; intros m H; cbn [fold_left map lceval fst snd].
  - split; [exact H|ring].
  - destruct (IH (add_entry m k (f v)) (add_entry_srt m k (f v) H)) as [I1 I2]. split; [exact I1|].
    rewrite I2, add_entry_eval by exact H. ring.
Qed.
Lemma fold_add_Forall (Q : nat -> Prop) (f : Fr -> Fr) l : forall m,
  Forall (fun kv => Q (fst kv)) l -> Forall (fun kv => Q (fst kv)) m ->
  Forall (fun kv => Q (fst kv)) (fold_left (fun res kv => add_entry res (fst kv) (f (snd kv))) l m).
Proof.
  induction l as [|[k v] l IH]; intros m HL HM; cbn [fold_left]; [exact HM|]. inversion HL; subst.
  apply IH; [assumption|]. apply add_entry_Forall; assumption.
Qed.
Lemma lceval_scale W k l : lceval W (map (fun kv => (fst kv, k *' snd kv)) l) = k *' lceval W l.
Proof. induction l as [|[a v] l IH]; cbn [map lceval fst snd]; [ring|]. rewrite IH. ring. Qed.
Lemma map_id_kv (l : bmap) : map (fun kv => (fst kv, snd kv)) l = l.
Proof. induction l as [|[a v] l IH]; cbn; [reflexivity|]. rewrite IH. reflexivity. Qed.

Lemma join_eval W a k b : lceval W (join a k b) = k *' lceval W a +' lceval W b.
Proof.
  unfold join. rewrite normalize_eval.
  destruct (fold_add_eval W (fun v => k *' v) a [] I) as [S1 E1]. cbv zeta in *.
  destruct (fold_add_eval W (fun v => v) b _ S1) as [S2 E2]. rewrite E2, E1, lceval_scale, map_id_kv.
  cbn [lceval]. ring.
Qed.
Lemma join_Forall (Q : nat -> Prop) a k b : Forall (fun kv => Q (fst kv)) a -> Forall (fun kv => Q (fst kv)) b ->
  Forall (fun kv => Q (fst kv)) (join a k b).
Proof.
  intros Ha Hb. unfold join. apply (normalize_Forall (fun kv => Q (fst kv))).
  apply (fold_add_Forall Q (fun v => v)); [exact Hb|]. apply (fold_add_Forall Q (fun v => k *' v)); [exact Ha|constructor].
Qed.

(* ---- reduce_coefs ---- *)
Lemma split_const_spec W lc : W 0 = f1 -> forall k cs k' cs', split_const lc k cs = (k', cs') ->
  k' +' lceval W cs' = k +' lceval W cs +' lceval W lc.
Proof.
  intros W0. induction lc as [|[key v] r IH]; intros k cs k' cs' E; cbn [split_const] in E.
  - injection E as <- <-. cbn [lceval]. ring.
  - cbn [lceval]. destruct (Nat.eqb_spec key 0) as [->|N].
    + apply IH in E. rewrite E, W0. ring.
    + destruct (feqb v f0) eqn:Z.
      * apply feqb_eq in Z. subst v. apply IH in E. rewrite E. ring.
      * apply IH in E. rewrite E, lceval_app. cbn [lceval]. ring.
Qed.
Lemma split_const_in (Q : nat * Fr -> Prop) lc : forall k cs k' cs', split_const lc k cs = (k', cs') ->
  Forall Q lc -> Forall Q cs -> Forall Q cs'.
Proof.
  induction lc as [|[key v] r IH]; intros k cs k' cs' E HL HC; cbn [split_const] in E.
  - injection E as <- <-. exact HC.
  - inversion HL; subst. destruct (key =? 0); [eapply IH; eassumption|].
    destruct (feqb v f0); [eapply IH; eassumption|]. eapply IH; try eassumption.
    apply Forall_app. split; [exact HC|constructor; auto].
Qed.

Definition below (n : nat) (cs : list (nat * Fr)) : Prop := Forall (fun kv => fst kv < n) cs.
Lemma below_mono n m cs : n <= m -> below n cs -> below m cs.
Proof. intros L H. eapply Forall_impl; [|exact H]. cbn. intros. lia. Qed.

Lemma fadd_move a b : a = b <-> fneg b +' a = f0.
Proof.
  split; intros H; [subst; ring|]. transitivity (b +' (fneg b +' a)); [ring|]. rewrite H. ring.
Qed.

(* new gates G say exactly that the new wires carry the additions A *)
Definition stepped (st st' : state) (G : list PlonkGate) (A : list PlonkAdd) : Prop :=
  let '(pc, pa, n) := st in st' = (pc ++ G, pa ++ A, n + length A).

Lemma reduce_loop_spec max : 1 <= max -> forall fuel cs pc pa n, length cs <= fuel -> below n cs ->
  exists cs' G A, reduce_loop fuel max cs (pc, pa, n) = Ok (cs', (pc ++ G, pa ++ A, n + length A)) /\
    length cs' <= max /\ below (n + length A) cs' /\ adds_in n A /\
    (forall W, Forall (gate_ok W) G <-> add_eqs W n A) /\
    (forall W, add_eqs W n A -> lceval W cs' = lceval W cs).
Proof.
  intros Hm. induction fuel as [|fuel IH]; intros cs pc pa n HL HB; cbn [reduce_loop].
  - assert (E : length cs <=? max = true) by (apply Nat.leb_le; lia). rewrite E.
    exists cs, [], []. rewrite !app_nil_r. cbn [length add_eqs]. rewrite Nat.add_0_r.
    apply Nat.leb_le in E. repeat split; auto; try constructor.
  - destruct (Nat.leb_spec (length cs) max) as [L|L].
    + exists cs, [], []. rewrite !app_nil_r. cbn [length add_eqs]. rewrite Nat.add_0_r.
      repeat split; auto; try constructor.
    + destruct cs as [|[sl v1] [|[sr v2] rest]]; cbn [length] in *; try lia.
      inversion HB as [|? ? B1 HB1]; subst. inversion HB1 as [|? ? B2 HB2]; subst. cbn [fst] in *.
      destruct (IH (rest ++ [(n, f1)]) (pc ++ [mkGate sl sr n f0 (fneg v1) (fneg v2) f1 f0]) (pa ++ [mkAdd sl sr v1 v2]) (n + 1))
        as [cs' [G [A [E [HL' [HB' [HI [HG HV]]]]]]]].
      { rewrite app_length. cbn. lia. }
      { apply Forall_app. split; [apply (below_mono n); [lia|exact HB2]|]. constructor; [cbn; lia|constructor]. }
      exists cs', (mkGate sl sr n f0 (fneg v1) (fneg v2) f1 f0 :: G), (mkAdd sl sr v1 v2 :: A).
      rewrite E, <- !app_assoc. cbn [app length add_eqs adds_in p_sl p_sr p_kl p_kr].
      replace (n + 1 + length A) with (n + S (length A)) in * by lia.
      replace (n + 1) with (S n) in * by lia.
      split; [reflexivity|]. split; [exact HL'|]. split; [exact HB'|]. split; [tauto|]. split.
      * intros W. rewrite Forall_cons_iff, HG. unfold gate_ok. cbn [g_qm g_ql g_qr g_qo g_qc g_sl g_sr g_so].
        rewrite (fadd_move (W n) (W sl *' v1 +' W sr *' v2)).
        replace (f0 *' W sl *' W sr +' fneg v1 *' W sl +' fneg v2 *' W sr +' f1 *' W n +' f0)
          with (fneg (W sl *' v1 +' W sr *' v2) +' W n) by ring. tauto.
      * intros W [E1 E2]. rewrite (HV W E2), lceval_app. cbn [lceval]. rewrite E1. ring.
Qed.

Lemma pad_eval W cs p : lceval W (combine (map fst cs ++ repeat 0 p) (map snd cs ++ repeat f0 p)) = lceval W cs.
Proof.
  induction cs as [|[k v] cs IH]; cbn [map fst snd app combine lceval].
  - induction p; cbn [repeat combine lceval]; [reflexivity|]. rewrite IHp. ring.
  - rewrite IH. reflexivity.
Qed.

Lemma reduce_spec lc max pc pa n : 1 <= max -> 1 <= n -> below n lc ->
  exists k s co G A, reduce_coefs lc max (pc, pa, n) = Ok ((k, s, co), (pc ++ G, pa ++ A, n + length A)) /\
    length s = max /\ length co = max /\ adds_in n A /\ Forall (fun i => i < n + length A) s /\
    (forall W, Forall (gate_ok W) G <-> add_eqs W n A) /\
    (forall W, W 0 = f1 -> add_eqs W n A -> k +' lceval W (combine s co) = lceval W lc).
Proof.
  intros Hm Hn HB. unfold reduce_coefs. destruct (split_const lc f0 []) as [k cs] eqn:E.
  assert (HC : below n cs) by (eapply split_const_in; [exact E|exact HB|constructor]).
  destruct (reduce_loop_spec max Hm (length cs) cs pc pa n (le_n _) HC) as [cs' [G [A [ER [HL [HB' [HI [HG HV]]]]]]]].
  rewrite ER. cbn [bind]. exists k, (map fst cs' ++ repeat 0 (max - length cs')), (map snd cs' ++ repeat f0 (max - length cs')), G, A.
  split; [reflexivity|]. rewrite !app_length, !map_length, !repeat_length. split; [lia|]. split; [lia|]. split; [exact HI|]. split.
  - apply Forall_app. split.
    + apply Forall_forall. intros i Hi. apply in_map_iff in Hi. destruct Hi as [x [<- Hx]].
      unfold below in HB'. rewrite Forall_forall in HB'. apply HB'. exact Hx.
    + apply Forall_forall. intros i Hi. apply repeat_spec in Hi. lia.
  - split; [exact HG|]. intros W W0 HA. rewrite pad_eval, (HV W HA), (split_const_spec W lc W0 _ _ _ _ E).
    cbn [lceval]. ring.
Qed.

(* ---- gates ---- *)
Definition gate_in (n : nat) (g : PlonkGate) : Prop := g_sl g < n /\ g_sr g < n /\ g_so g < n.

Ltac len1 l x := destruct l as [|x [|? ?]]; cbn [length] in *; try lia.
Ltac len3 l := destruct l as [|? [|? [|? [|? ?]]]]; cbn [length] in *; try lia.

Definition step_ok (st : state) (r : res state) (Sem : (nat -> Fr) -> Prop) : Prop :=
  let '(pc, pa, n) := st in
  exists G A, r = Ok (pc ++ G, pa ++ A, n + length A) /\ adds_in n A /\
    (forall W, W 0 = f1 -> (Forall (gate_ok W) G <-> add_eqs W n A /\ Sem W)).

Lemma sum_spec lc pc pa n : 1 <= n -> below n lc ->
  step_ok (pc, pa, n) (add_constraint_sum lc (pc, pa, n)) (fun W => lceval W lc = f0).
Proof.
  intros Hn HB. unfold step_ok, add_constraint_sum.
  destruct (reduce_spec lc 3 pc pa n ltac:(lia) Hn HB) as [k [s [co [G [A [E [Ls [Lc [HI [HS [HG HV]]]]]]]]]]].
  rewrite E. cbn [bind]. len3 s. len3 co. cbn [vget nth_error bind].
  eexists (G ++ _), A. rewrite app_assoc. split; [reflexivity|]. split; [exact HI|].
  intros W W0. rewrite Forall_app, Forall_sing, HG. unfold gate_ok. cbn [g_qm g_ql g_qr g_qo g_qc g_sl g_sr g_so].
  split; intros [H1 H2]; (split; [exact H1|]).
  - rewrite <- (HV W W0 H1). cbn [combine lceval]. etransitivity; [|exact H2]. ring.
  - rewrite <- (HV W W0 H1) in H2. cbn [combine lceval] in H2. etransitivity; [|exact H2]. ring.
Qed.

Lemma mul_spec la lb lc pc pa n : 1 <= n -> below n la -> below n lb -> below n lc ->
  step_ok (pc, pa, n) (add_constraint_mul la lb lc (pc, pa, n))
    (fun W => lceval W la *' lceval W lb = lceval W lc).
Proof.
  intros Hn HA HB HC. unfold step_ok, add_constraint_mul.
  destruct (reduce_spec la 1 pc pa n ltac:(lia) Hn HA) as [k1 [s1 [co1 [G1 [A1 [E1 [Ls1 [Lc1 [HI1 [HS1 [HG1 HV1]]]]]]]]]]].
  rewrite E1. cbn [bind].
  destruct (reduce_spec lb 1 (pc ++ G1) (pa ++ A1) (n + length A1) ltac:(lia) ltac:(lia) ltac:(eapply below_mono; [|exact HB]; lia))
    as [k2 [s2 [co2 [G2 [A2 [E2 [Ls2 [Lc2 [HI2 [HS2 [HG2 HV2]]]]]]]]]]].
  rewrite E2. cbn [bind].
  destruct (reduce_spec lc 1 ((pc ++ G1) ++ G2) ((pa ++ A1) ++ A2) (n + length A1 + length A2) ltac:(lia) ltac:(lia) ltac:(eapply below_mono; [|exact HC]; lia))
    as [k3 [s3 [co3 [G3 [A3 [E3 [Ls3 [Lc3 [HI3 [HS3 [HG3 HV3]]]]]]]]]]].
  rewrite E3. cbn [bind]. len1 s1 i1. len1 co1 x1. len1 s2 i2. len1 co2 x2. len1 s3 i3. len1 co3 x3. cbn [vget nth_error bind].
  eexists (G1 ++ G2 ++ G3 ++ _), (A1 ++ A2 ++ A3). split.
  - rewrite !app_length, <- !app_assoc, !Nat.add_assoc. reflexivity.
  - split; [rewrite !adds_in_app; tauto|].
    intros W W0. rewrite !Forall_app, Forall_sing, HG1, HG2, HG3, !add_eqs_app. unfold gate_ok.
    cbn [g_qm g_ql g_qr g_qo g_qc g_sl g_sr g_so].
    assert (Q : add_eqs W n A1 -> add_eqs W (n + length A1) A2 -> add_eqs W (n + length A1 + length A2) A3 ->
      (x1 *' x2 *' W i1 *' W i2 +' x1 *' k2 *' W i1 +' k1 *' x2 *' W i2 +' fneg x3 *' W i3 +' fsub (k1 *' k2) k3 = f0 <->
       lceval W la *' lceval W lb = lceval W lc)).
    { intros Q1 Q2 Q3. rewrite <- (HV1 W W0 Q1), <- (HV2 W W0 Q2), <- (HV3 W W0 Q3). cbn [combine lceval].
      rewrite (fadd_move ((k1 +' (x1 *' W i1 +' f0)) *' (k2 +' (x2 *' W i2 +' f0))) (k3 +' (x3 *' W i3 +' f0))).
      assert (X : forall a b : Fr, a = b -> (a = f0 <-> b = f0)) by (intros; subst; tauto).
      apply X. ring. }
    tauto.
Qed.

(* ---- to_be_map and get_lc_type ---- *)
Lemma to_map_spec lc : forall m, srt m -> NoDup (map fst lc) ->
  (forall k, In k (map fst lc) -> bget k m = None) ->
  exists m', to_be_map_from lc m = Ok m' /\ srt m' /\
    (forall W, lceval W m' = lceval W m +' lceval W lc) /\
    (forall Q : nat * Fr -> Prop, Forall Q m' <-> Forall Q m /\ Forall Q lc).
Proof.
  induction lc as [|[k v] r IH]; intros m HS HN HD; cbn [to_be_map_from].
  - exists m. repeat split; auto; try (intros; cbn [lceval]; ring); try tauto.
  - cbn [map fst] in *. inversion HN as [|? ? NI HN']; subst.
    pose proof (HD k (or_introl eq_refl)) as Dk. rewrite Dk.
    assert (BF : forall Q : nat * Fr -> Prop, Forall Q (bins k v m) <-> Q (k, v) /\ Forall Q m).
    { intros Q. split; [|intros [A B]; apply bins_Forall; assumption].
      clear - Dk. induction m as [|[k' v'] m IH]; cbn [bins]; intros H; [inversion H; auto|].
      cbn [bget] in Dk. destruct (Nat.eqb_spec k k') as [->|N]; [discriminate|]. destruct (k <? k').
      - inversion H; auto.
      - inversion H; subst. destruct (IH Dk H3) as [A B]. auto. }
    destruct (IH (bins k v m) (bins_srt k v m HS) HN') as [m' [E [S' [V F]]]].
    { intros k2 H2. destruct (bget k2 (bins k v m)) eqn:G; [|reflexivity]. exfalso.
      assert (N : k2 <> k) by (intros ->; apply NI; exact H2).
      apply bget_in in G. pose proof (bget_none k2 m (HD k2 (or_intror H2))) as F.
      assert (F2 : Forall (fun kv => fst kv <> k2) (bins k v m)) by (apply bins_Forall; [cbn; congruence|exact F]).
      rewrite Forall_forall in F2. apply (F2 _ G). reflexivity. }
    exists m'. split; [exact E|]. split; [exact S'|]. split.
    + intros W. rewrite V. pose proof (bins_eval W k v m HS) as B. rewrite Dk in B. cbn [lceval].
      transitivity ((lceval W (bins k v m) +' f0 *' W k) +' lceval W r); [ring|]. rewrite B. ring.
    + intros Q. rewrite F, BF, Forall_cons_iff. tauto.
Qed.

Lemma to_be_map_ok lc : NoDup (map fst lc) ->
  exists m, to_be_map lc = Ok m /\ srt m /\ (forall W, lceval W m = lceval W lc) /\
    (forall Q : nat * Fr -> Prop, Forall Q m <-> Forall Q lc).
Proof.
  intros H. destruct (to_map_spec lc [] I H) as [m [E [S [V F]]]]; [reflexivity|].
  exists m. split; [exact E|]. split; [exact S|]. split.
  - intros W. rewrite V. cbn [lceval]. ring.
  - intros Q. rewrite F. intuition.
Qed.

Lemma to_map_dup lc : forall m, srt m -> (~ NoDup (map fst lc) \/ exists k, In k (map fst lc) /\ bget k m <> None) ->
  to_be_map_from lc m = Panic.
Proof.
  induction lc as [|[k v] r IH]; intros m HS H; cbn [to_be_map_from map fst] in *.
  - exfalso. destruct H as [H|[k [[] _]]]. apply H. constructor.
  - destruct (bget k m) eqn:G; [reflexivity|]. apply IH; [apply bins_srt; exact HS|].
    assert (GI : forall k2, k2 = k \/ bget k2 m <> None -> bget k2 (bins k v m) <> None).
    { clear - HS G. induction m as [|[k' v'] m IHm]; intros k2 Hk; cbn [bins bget] in *.
      - destruct Hk as [->|Hk]; [rewrite Nat.eqb_refl; discriminate|congruence].
      - destruct HS as [H1 H2]. destruct (Nat.eqb_spec k k') as [->|N]; [discriminate|].
        destruct (Nat.ltb_spec k k') as [L|L]; cbn [bget].
        + destruct (Nat.eqb_spec k2 k) as [E2|N2]; [discriminate|]. destruct Hk as [->|Hk]; [congruence|exact Hk].
        + destruct (Nat.eqb_spec k2 k') as [E2|N2]; [discriminate|]. apply IHm; auto. }
    destruct (in_dec Nat.eq_dec k (map fst r)) as [HI|HI].
    + right. exists k. split; [exact HI|]. apply GI. auto.
    + destruct H as [H|[k2 [[<-|H1] H2]]].
      * left. intros N. apply H. constructor; assumption.
      * congruence.
      * right. exists k2. split; [exact H1|]. apply GI. auto.
Qed.
Lemma to_be_map_dup lc : ~ NoDup (map fst lc) -> to_be_map lc = Panic.
Proof. intros H. apply to_map_dup; [exact I|auto]. Qed.

(* the shape of one side of a constraint, read off its entries *)
Definition only_const (lc : list (nat * Fr)) : Prop := Forall (fun kv => fst kv = 0 \/ snd kv = f0) lc.
Definition W1 (i : nat) : Fr := if i =? 0 then f1 else f0.
Definition cst (lc : list (nat * Fr)) : Fr := lceval W1 lc.

Lemma const_eval W lc : W 0 = f1 -> only_const lc -> lceval W lc = cst lc.
Proof.
  intros W0. induction lc as [|[k v] r IH]; intros H; cbn [lceval]; [reflexivity|]. inversion H as [|? ? D H']; subst.
  unfold cst. cbn [lceval]. fold (cst r). rewrite (IH H'). destruct D as [D|D]; cbn in D; subst.
  - rewrite W0. reflexivity.
  - ring.
Qed.

Lemma lc_count_spec lc : forall k n k' n', lc_count lc k n = (k', n') ->
  n <= n' /\ (n' = n <-> only_const lc) /\ (n' = n -> k' = k +' cst lc).
Proof.
  induction lc as [|[key v] r IH]; intros k n k' n' E; cbn [lc_count] in E.
  - injection E as <- <-. split; [lia|]. split; [split; [constructor|reflexivity]|]. intros _. unfold cst. cbn [lceval]. ring.
  - unfold cst in *. cbn [lceval]. destruct (feqb v f0) eqn:Z.
    + apply feqb_eq in Z. subst v. apply IH in E. destruct E as [E1 [E2 E3]]. split; [exact E1|]. split.
      * rewrite E2. unfold only_const. rewrite Forall_cons_iff. cbn [fst snd]. tauto.
      * intros H. rewrite (E3 H). ring.
    + assert (NZ : v <> f0) by (intros ->; rewrite (proj2 (feqb_eq f0 f0) eq_refl) in Z; discriminate).
      destruct (Nat.eqb_spec key 0) as [->|N].
      * apply IH in E. destruct E as [E1 [E2 E3]]. split; [exact E1|]. split.
        -- rewrite E2. unfold only_const. rewrite Forall_cons_iff. cbn [fst snd]. tauto.
        -- intros H. rewrite (E3 H). unfold W1 at 2. cbn [Nat.eqb]. ring.
      * apply IH in E. destruct E as [E1 [E2 E3]]. split; [lia|]. split.
        -- split; [lia|]. intros H. inversion H as [|? ? [D|D] _]; cbn in D; congruence.
        -- lia.
Qed.

Lemma const_normal m : srt m -> only_const m -> cst m <> f0 -> bget 0 (normalize m) = Some (cst m).
Proof.
  intros HS HC HN.
  assert (A : forall m, srt m -> only_const m -> normalize m = [] \/ exists v, normalize m = [(0, v)]).
  { clear. induction m as [|[k v] m IH]; intros HS HC; [left; reflexivity|].
    destruct HS as [S1 S2]. inversion HC as [|? ? D HC']; subst. cbn [normalize filter snd].
    destruct (feqb v f0) eqn:Z; cbn [negb]; [apply IH; assumption|].
    destruct D as [D|D]; cbn in D; [|subst v; rewrite (proj2 (feqb_eq f0 f0) eq_refl) in Z; discriminate].
    subst k. right. exists v. f_equal. fold (normalize m).
    assert (F : Forall (fun kv => snd kv = f0) m).
    { unfold only_const in HC'. rewrite Forall_forall in *. intros x Hx. specialize (S1 x Hx). specialize (HC' x Hx). cbn in S1. destruct HC' as [B|B]; [lia|exact B]. }
    clear - F. induction F as [|[k v] m Hv F IH]; [reflexivity|]. cbn in Hv. subst v. cbn [normalize filter snd].
    rewrite (proj2 (feqb_eq f0 f0) eq_refl). exact IH. }
  destruct (A m HS HC) as [E|[v E]].
  - exfalso. apply HN. unfold cst. rewrite <- normalize_eval, E. reflexivity.
  - rewrite E. cbn [bget Nat.eqb]. f_equal. unfold cst. rewrite <- normalize_eval, E. cbn [lceval].
    unfold W1. cbn [Nat.eqb]. ring.
Qed.

Definition oc_dec (lc : list (nat * Fr)) : {only_const lc} + {~ only_const lc}.
Proof.
  apply Forall_dec. intros [k v]. destruct (Nat.eq_dec k 0) as [E|E]; [left; auto|].
  destruct (feq_dec v f0) as [F|F]; [left; auto|right; cbn; tauto].
Defined.

Lemma get_lc_type_spec m : srt m ->
  exists t, get_lc_type m = (t, normalize m) /\
    match t with
    | LC0 => only_const m /\ cst m = f0
    | LCk => only_const m /\ cst m <> f0 /\ bidx (normalize m) 0 = Ok (cst m)
    | LCn _ => ~ only_const m
    end.
Proof.
  intros HS. unfold get_lc_type. destruct (lc_count m f0 0) as [k n] eqn:E.
  apply lc_count_spec in E. destruct E as [E1 [E2 E3]].
  eexists. split; [reflexivity|]. destruct (Nat.ltb_spec 0 n) as [L|L].
  - intros H. apply E2 in H. lia.
  - assert (n = 0) by lia. pose proof (proj1 E2 H) as OC. pose proof (E3 H) as K.
    assert (K' : k = cst m) by (rewrite K; ring). clear K.
    destruct (feqb k f0) eqn:Z; cbn [negb].
    + apply feqb_eq in Z. split; [exact OC|congruence].
    + assert (NZ : cst m <> f0).
      { intros X. rewrite K', X, (proj2 (feqb_eq f0 f0) eq_refl) in Z. discriminate. }
      split; [exact OC|]. split; [exact NZ|]. unfold bidx. rewrite (const_normal m HS OC NZ). reflexivity.
Qed.

(* a constraint one side of which is a non-zero constant, the other not the constant zero *)
Definition const_side (c : constraint) : Prop :=
  let '(a, b, _) := c in
  (only_const a /\ cst a <> f0 /\ ~ (only_const b /\ cst b = f0)) \/
  (only_const b /\ cst b <> f0 /\ ~ (only_const a /\ cst a = f0)).

(* what the generated gates say about one constraint *)
Definition plonk_sem (W : nat -> Fr) (c : constraint) : Prop :=
  let '(a, b, cc) := c in
  (const_side c -> lceval W a *' lceval W b +' lceval W cc = f0) /\
  (~ const_side c -> lceval W a *' lceval W b = lceval W cc).

Definition wf_side (n : nat) (lc : list (nat * Fr)) : Prop := NoDup (map fst lc) /\ below n lc.
Definition wf_constraint (n : nat) (c : constraint) : Prop :=
  let '(a, b, cc) := c in wf_side n a /\ wf_side n b /\ wf_side n cc.

Lemma f0_mul_l x : f0 *' x = f0. Proof. ring. Qed.
Lemma f0_mul_r x : x *' f0 = f0. Proof. ring. Qed.

Lemma step_ok_ext st r S1 S2 : (forall W, W 0 = f1 -> (S1 W <-> S2 W)) -> step_ok st r S1 -> step_ok st r S2.
Proof.
  intros H. destruct st as [[pc pa] n]. intros [G [A [E [I HG]]]]. exists G, A. split; [exact E|]. split; [exact I|].
  intros W W0. rewrite (HG W W0), (H W W0). tauto.
Qed.

Lemma process_spec c pc pa n0 n : 1 <= n0 -> n0 <= n -> wf_constraint n0 c ->
  step_ok (pc, pa, n) (process c (pc, pa, n)) (fun W => plonk_sem W c).
Proof.
  intros Hn0 Hn. destruct c as [[a b] cc]. intros [[Na Ba] [[Nb Bb] [Nc Bc]]]. unfold process.
  destruct (to_be_map_ok a Na) as [ma [Ea [Sa [Va Fa]]]]. destruct (to_be_map_ok b Nb) as [mb [Eb [Sb [Vb Fb]]]].
  destruct (to_be_map_ok cc Nc) as [mc [Ec [Sc [Vc Fc]]]]. rewrite Ea, Eb, Ec. cbn [bind].
  destruct (get_lc_type_spec ma Sa) as [ta [Ga Ta]]. destruct (get_lc_type_spec mb Sb) as [tb [Gb Tb]].
  rewrite Ga, Gb.
  assert (Ma : below n (normalize ma)).
  { apply normalize_Forall. apply (below_mono n0); [exact Hn|]. apply Fa. exact Ba. }
  assert (Mb : below n (normalize mb)).
  { apply normalize_Forall. apply (below_mono n0); [exact Hn|]. apply Fb. exact Bb. }
  assert (Mc : below n mc).
  { apply (below_mono n0); [exact Hn|]. apply Fc. exact Bc. }
  assert (Mc' : below n (normalize mc)) by (apply normalize_Forall; exact Mc).
  assert (Oa : only_const ma <-> only_const a) by (apply Fa).
  assert (Ob : only_const mb <-> only_const b) by (apply Fb).
  assert (Ca : cst ma = cst a) by (apply Va). assert (Cb : cst mb = cst b) by (apply Vb).
  assert (Zc : (only_const a /\ cst a = f0) \/ (only_const b /\ cst b = f0) ->
     step_ok (pc, pa, n) (add_constraint_sum (normalize mc) (pc, pa, n)) (fun W => plonk_sem W (a, b, cc))).
  { intros D. eapply step_ok_ext; [|apply sum_spec; [lia|exact Mc']].
    intros W W0. cbn beta. rewrite normalize_eval, Vc. unfold plonk_sem, const_side.
    assert (P0 : lceval W a *' lceval W b = f0).
    { destruct D as [[D1 D2]|[D1 D2]]; rewrite (const_eval W _ W0 D1), D2; ring. }
    rewrite P0. split; [intros X; rewrite X; split; [intros; ring|reflexivity]|].
    intros [_ X]. symmetry. apply X. tauto. }
  destruct ta as [| |na]; rewrite ?Oa, ?Ca in Ta; [apply Zc; auto| |].
  - destruct tb as [| |nb]; rewrite ?Ob, ?Cb in Tb; [apply Zc; auto| |].
    + destruct Ta as [A1 [A2 A3]]. rewrite A3. cbn [bind].
      eapply step_ok_ext; [|apply sum_spec; [lia|apply (join_Forall (fun k => k < n)); assumption]].
      intros W W0. cbn beta. rewrite join_eval, normalize_eval, Vb, Vc. unfold plonk_sem, const_side.
      rewrite <- (const_eval W a W0 A1) at 1. split; [intros X; split; [intros _; exact X|tauto]|]. intros [X _]. apply X. left. tauto.
    + destruct Ta as [A1 [A2 A3]]. rewrite A3. cbn [bind].
      eapply step_ok_ext; [|apply sum_spec; [lia|apply (join_Forall (fun k => k < n)); assumption]].
      intros W W0. cbn beta. rewrite join_eval, normalize_eval, Vb, Vc. unfold plonk_sem, const_side.
      rewrite <- (const_eval W a W0 A1) at 1. split; [intros X; split; [intros _; exact X|tauto]|]. intros [X _]. apply X. left. tauto.
  - destruct tb as [| |nb]; rewrite ?Ob, ?Cb in Tb; [apply Zc; auto| |].
    + destruct Tb as [A1 [A2 A3]]. rewrite A3. cbn [bind].
      eapply step_ok_ext; [|apply sum_spec; [lia|apply (join_Forall (fun k => k < n)); assumption]].
      intros W W0. cbn beta. rewrite join_eval, normalize_eval, Va, Vc. unfold plonk_sem, const_side.
      rewrite <- (const_eval W b W0 A1) at 1.
      replace (lceval W b *' lceval W a) with (lceval W a *' lceval W b) by ring.
      split; [intros X; split; [intros _; exact X|tauto]|]. intros [X _]. apply X. right. tauto.
    + eapply step_ok_ext; [|apply mul_spec; [lia|exact Ma|exact Mb|exact Mc]].
      intros W W0. cbn beta. rewrite !normalize_eval, Va, Vb, Vc. unfold plonk_sem, const_side.
      split; [intros X; split; [tauto|intros _; exact X]|]. intros [_ X]. apply X. tauto.
Qed.

Lemma fold_process cs : forall pc pa n0 n, 1 <= n0 -> n0 <= n -> Forall (wf_constraint n0) cs ->
  step_ok (pc, pa, n) (foldM (fun st c => process c st) cs (pc, pa, n)) (fun W => Forall (plonk_sem W) cs).
Proof.
  induction cs as [|c cs IH]; intros pc pa n0 n Hn0 Hn HW; cbn [foldM].
  - exists [], []. rewrite !app_nil_r. cbn [length add_eqs adds_in]. rewrite Nat.add_0_r.
    split; [reflexivity|]. split; [exact I|]. intros W _. split; intros; [split; [exact I|constructor]|constructor].
  - inversion HW as [|? ? H1 H2]; subst.
    destruct (process_spec c pc pa n0 n Hn0 Hn H1) as [G [A [E [HI HG]]]]. rewrite E. cbn [bind].
    destruct (IH (pc ++ G) (pa ++ A) n0 (n + length A) Hn0 ltac:(lia) H2) as [G' [A' [E' [HI' HG']]]]. rewrite E'.
    exists (G ++ G'), (A ++ A'). rewrite !app_assoc, app_length, Nat.add_assoc. split; [reflexivity|].
    split; [apply adds_in_app; tauto|]. intros W W0.
    rewrite Forall_app, (HG W W0), (HG' W W0), add_eqs_app, Forall_cons_iff. tauto.
Qed.

Lemma r1cs2plonk_spec r : 1 <= num_variables r -> Forall (wf_constraint (num_variables r)) (constraints r) ->
  exists pc pa, r1cs2plonk r = Ok (pc, pa) /\ adds_in (num_variables r) pa /\
    forall W, W 0 = f1 -> (Forall (gate_ok W) pc <-> add_eqs W (num_variables r) pa /\ Forall (plonk_sem W) (constraints r)).
Proof.
  intros Hn HW. destruct (fold_process (constraints r) [] [] _ _ Hn (le_n _) HW) as [G [A [E [HI HG]]]].
  exists G, A. unfold r1cs2plonk. rewrite E. cbn [bind app]. auto.
Qed.

(* ---- assignments as vectors ---- *)
Definition wire (w : list Fr) (i : nat) : Fr := nth i w f0.
Definition ext (w : list Fr) (A : list PlonkAdd) : list Fr :=
  fold_left (fun w a => w ++ [wire w (p_sl a) *' p_kl a +' wire w (p_sr a) *' p_kr a]) A w.

Lemma ext_prefix A : forall w, exists t, ext w A = w ++ t /\ length t = length A.
Proof.
  unfold ext. induction A as [|a A IH]; intros w; cbn [fold_left].
  - exists []. rewrite app_nil_r. auto.
  - edestruct IH as [t [E L]]. rewrite E. eexists. rewrite <- app_assoc. split; [reflexivity|]. cbn. lia.
Qed.
Lemma wire_app w t i : i < length w -> wire (w ++ t) i = wire w i.
Proof. intros H. unfold wire. apply app_nth1. exact H. Qed.

Lemma ext_eqs A : forall w, adds_in (length w) A -> add_eqs (wire (ext w A)) (length w) A.
Proof.
  induction A as [|a A IH]; intros w H; cbn [add_eqs]; [exact I|]. destruct H as [H1 [H2 H3]].
  set (x := wire w (p_sl a) *' p_kl a +' wire w (p_sr a) *' p_kr a).
  change (ext w (a :: A)) with (ext (w ++ [x]) A).
  assert (L : length (w ++ [x]) = S (length w)) by (rewrite app_length; cbn; lia).
  specialize (IH (w ++ [x])). rewrite L in IH. specialize (IH H3). split; [|exact IH].
  destruct (ext_prefix A (w ++ [x])) as [t [E _]]. rewrite E, <- app_assoc.
  rewrite (wire_app w _ (p_sl a)), (wire_app w _ (p_sr a)) by assumption. unfold wire at 1. rewrite app_nth2, Nat.sub_diag by lia. reflexivity.
Qed.

Lemma ext_unique A : forall w t, adds_in (length w) A -> length t = length A ->
  add_eqs (wire (w ++ t)) (length w) A -> w ++ t = ext w A.
Proof.
  induction A as [|a A IH]; intros w t HI HL HE.
  - destruct t; [apply app_nil_r|discriminate].
  - destruct t as [|x t]; [discriminate|]. cbn [adds_in add_eqs length] in *. destruct HI as [H1 [H2 H3]]. destruct HE as [E1 E2].
    assert (X : x = wire w (p_sl a) *' p_kl a +' wire w (p_sr a) *' p_kr a).
    { rewrite (wire_app w _ (p_sl a)), (wire_app w _ (p_sr a)) in E1 by assumption. unfold wire at 1 in E1. rewrite app_nth2, Nat.sub_diag in E1 by lia. exact E1. }
    change (ext w (a :: A)) with (ext (w ++ [wire w (p_sl a) *' p_kl a +' wire w (p_sr a) *' p_kr a]) A). rewrite <- X.
    assert (L : length (w ++ [x]) = S (length w)) by (rewrite app_length; cbn; lia).
    replace (w ++ x :: t) with ((w ++ [x]) ++ t) in * by (rewrite <- app_assoc; reflexivity).
    apply IH; [rewrite L; exact H3|lia|rewrite L; exact E2].
Qed.

Lemma lceval_ext W W' n lc : below n lc -> (forall i, i < n -> W i = W' i) -> lceval W lc = lceval W' lc.
Proof.
  intros HB H. induction HB as [|[k v] r Hk HB IH]; cbn [lceval]; [reflexivity|]. rewrite IH, (H k Hk). reflexivity.
Qed.
Lemma plonk_sem_ext W W' n c : wf_constraint n c -> (forall i, i < n -> W i = W' i) -> (plonk_sem W c <-> plonk_sem W' c).
Proof.
  destruct c as [[a b] cc]. intros [[_ Ba] [[_ Bb] [_ Bc]]] H. unfold plonk_sem.
  rewrite (lceval_ext W W' n a Ba H), (lceval_ext W W' n b Bb H), (lceval_ext W W' n cc Bc H). tauto.
Qed.

Lemma sem_all_ext W W' n cs : Forall (wf_constraint n) cs -> (forall i, i < n -> W i = W' i) ->
  (Forall (plonk_sem W) cs <-> Forall (plonk_sem W') cs).
Proof.
  intros HW H. induction HW as [|c cs Hc HW IH]; [split; constructor|].
  rewrite !Forall_cons_iff, IH, (plonk_sem_ext W W' n c Hc H). tauto.
Qed.

(* exact meaning of the generated system *)
Lemma plonk_exact r : 1 <= num_variables r -> Forall (wf_constraint (num_variables r)) (constraints r) ->
  exists pc pa, r1cs2plonk r = Ok (pc, pa) /\
    (forall w, length w = num_variables r -> wire w 0 = f1 ->
       (Forall (gate_ok (wire (ext w pa))) pc <-> Forall (plonk_sem (wire w)) (constraints r))) /\
    (forall w', length w' = num_variables r + length pa -> wire w' 0 = f1 -> Forall (gate_ok (wire w')) pc ->
       w' = ext (firstn (num_variables r) w') pa).
Proof.
  intros Hn HW. destruct (r1cs2plonk_spec r Hn HW) as [pc [pa [E [HI HG]]]]. exists pc, pa. split; [exact E|]. split.
  - intros w Lw W0. destruct (ext_prefix pa w) as [t [Et Lt]].
    assert (AG : forall i, i < num_variables r -> wire (ext w pa) i = wire w i).
    { intros i Hi. rewrite Et. apply wire_app. lia. }
    rewrite HG by (rewrite AG by lia; exact W0).
    rewrite (sem_all_ext _ _ _ _ HW AG). split; [intros [_ X]; exact X|]. intros X. split; [|exact X].
    rewrite <- Lw. apply ext_eqs. rewrite Lw. exact HI.
  - intros w' Lw W0 G. apply HG in G; [|exact W0]. destruct G as [GA _].
    rewrite <- (firstn_skipn (num_variables r) w') at 1.
    assert (LF : length (firstn (num_variables r) w') = num_variables r) by (rewrite firstn_length; lia).
    apply ext_unique; rewrite ?LF; [exact HI|rewrite skipn_length; lia|]. rewrite firstn_skipn. exact GA.
Qed.

Lemma sem_good W c : ~ const_side c -> (plonk_sem W c <-> r1cs_ok W c).
Proof. destruct c as [[a b] cc]. intros H. unfold plonk_sem, r1cs_ok. tauto. Qed.
Lemma sem_bad W c : const_side c -> (plonk_sem W c <-> let '(a, b, cc) := c in lceval W a *' lceval W b = fneg (lceval W cc)).
Proof.
  destruct c as [[a b] cc]. intros H. unfold plonk_sem.
  assert (X : lceval W a *' lceval W b +' lceval W cc = f0 <-> lceval W a *' lceval W b = fneg (lceval W cc)).
  { split; intros E; [transitivity (lceval W a *' lceval W b +' lceval W cc +' fneg (lceval W cc)); [ring|rewrite E; ring]|rewrite E; ring]. }
  tauto.
Qed.

Lemma sem_all_good W cs : Forall (fun c => ~ const_side c) cs -> (Forall (plonk_sem W) cs <-> Forall (r1cs_ok W) cs).
Proof.
  intros H. induction H as [|c cs Hc H IH]; [split; constructor|]. rewrite !Forall_cons_iff, IH, (sem_good W c Hc). tauto.
Qed.

Lemma plonk_equiv r : 1 <= num_variables r -> Forall (wf_constraint (num_variables r)) (constraints r) ->
  Forall (fun c => ~ const_side c) (constraints r) ->
  exists pc pa, r1cs2plonk r = Ok (pc, pa) /\
    (forall w, length w = num_variables r -> wire w 0 = f1 ->
       (Forall (gate_ok (wire (ext w pa))) pc <-> Forall (r1cs_ok (wire w)) (constraints r))) /\
    (forall w', length w' = num_variables r + length pa -> wire w' 0 = f1 -> Forall (gate_ok (wire w')) pc ->
       w' = ext (firstn (num_variables r) w') pa /\ Forall (r1cs_ok (wire (firstn (num_variables r) w'))) (constraints r)).
Proof.
  intros Hn HW HC. destruct (plonk_exact r Hn HW) as [pc [pa [E [H1 H2]]]]. exists pc, pa. split; [exact E|]. split.
  - intros w Lw W0. rewrite (H1 w Lw W0). apply sem_all_good. exact HC.
  - intros w' Lw W0 G. pose proof (H2 w' Lw W0 G) as X. split; [exact X|].
    assert (LF : length (firstn (num_variables r) w') = num_variables r) by (rewrite firstn_length; lia).
    apply (sem_all_good _ _ HC). apply (H1 _ LF); [|rewrite <- X; exact G].
    rewrite <- W0. symmetry. rewrite <- (firstn_skipn (num_variables r) w') at 1. apply wire_app. lia.
Qed.

Lemma plonk_dup r pre c post : constraints r = pre ++ c :: post -> 1 <= num_variables r ->
  Forall (wf_constraint (num_variables r)) pre ->
  (let '(a, b, cc) := c in ~ NoDup (map fst a) \/ ~ NoDup (map fst b) \/ ~ NoDup (map fst cc)) ->
  r1cs2plonk r = Panic.
Proof.
  intros E Hn HW HD. unfold r1cs2plonk. rewrite E.
  assert (FA : forall A B (f : B -> A -> res B) l1 l2 b, foldM f (l1 ++ l2) b = bind (foldM f l1 b) (foldM f l2)).
  { clear. intros A B f l1. induction l1 as [|x l1 IH]; intros l2 b; cbn [app foldM bind]; [reflexivity|].
    destruct (f b x); cbn [bind]; auto. }
  rewrite FA. destruct (fold_process pre [] [] _ _ Hn (le_n _) HW) as [G [A [E2 _]]]. rewrite E2. cbn [bind foldM].
  destruct c as [[a b] cc]. unfold process.
  assert (T : forall lc, to_be_map lc = Panic \/ exists m, to_be_map lc = Ok m).
  { intros lc. destruct (ListDec.NoDup_dec Nat.eq_dec (map fst lc)) as [N|N].
    - right. destruct (to_be_map_ok lc N) as [m [X _]]. eauto.
    - left. apply to_be_map_dup. exact N. }
  destruct (T a) as [Ta|[ma Ta]]; rewrite Ta; cbn [bind]; [reflexivity|].
  destruct (T b) as [Tb|[mb Tb]]; rewrite Tb; cbn [bind]; [reflexivity|].
  destruct (T cc) as [Tc|[mc Tc]]; rewrite Tc; cbn [bind]; [reflexivity|].
  exfalso. destruct HD as [D|[D|D]]; apply to_be_map_dup in D; congruence.
Qed.


Definition sign_case : R1CS :=
  mkR1CS 1 3 0 [([(0, fof 2)], [(1, f1)], [(2, f1)])].
Lemma fint_neq (a b : Fr) : Z.eqb (fint a) (fint b) = false -> a <> b.
Proof. intros H E. subst b. rewrite Z.eqb_refl in H. discriminate. Qed.

Lemma sign_bug :
  exists pc pa, r1cs2plonk sign_case = Ok (pc, pa) /\
    Forall (r1cs_ok (wire [f1; fof 3; fof 6])) (constraints sign_case) /\
    ~ Forall (gate_ok (wire (ext [f1; fof 3; fof 6] pa))) pc /\
    ~ Forall (r1cs_ok (wire [f1; fof 3; fneg (fof 6)])) (constraints sign_case) /\
    Forall (gate_ok (wire (ext [f1; fof 3; fneg (fof 6)] pa))) pc.
Proof.
  assert (HW : Forall (wf_constraint (num_variables sign_case)) (constraints sign_case)).
  { repeat constructor; cbn; try (intros []); lia. }
  destruct (plonk_exact sign_case) as [pc [pa [E [H _]]]]; [cbn; lia|exact HW|].
  assert (CS : const_side ([(0, fof 2)], [(1, f1)], [(2, f1)])).
  { left. split; [repeat constructor|]. split; [apply fint_neq; vm_compute; reflexivity|].
    intros [O _]. inversion O as [|? ? [D|D] _]; cbn in D; [discriminate|]. revert D. apply fint_neq. vm_compute. reflexivity. }
  exists pc, pa. split; [exact E|]. split; [|split; [|split]].
  - constructor; [|constructor]. apply fint_inj. vm_compute. reflexivity.
  - rewrite (H [f1; fof 3; fof 6] eq_refl eq_refl). intros X. inversion X as [|? ? X1 _]; subst.
    apply (sem_bad _ _ CS) in X1. revert X1. apply fint_neq. vm_compute. reflexivity.
  - intros X. inversion X as [|? ? X1 _]; subst. unfold r1cs_ok in X1. revert X1. apply fint_neq. vm_compute. reflexivity.
  - rewrite (H [f1; fof 3; fneg (fof 6)] eq_refl eq_refl). constructor; [|constructor].
    apply (sem_bad _ _ CS). apply fint_inj. vm_compute. reflexivity.
Qed.
