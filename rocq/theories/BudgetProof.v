(* How many rows the placement needs, compared with the number reserved for it. *)
From Verif Require Import Base GlModel FrField ListAux PlonkModel PlonkProof CompressorModel PlaceProof.
From Coq Require Import Permutation.
Open Scope nat_scope.
Ltac cols := unfold consts; repeat (apply Forall_cons; [cbn [fst]; lia|]); apply Forall_nil.

(* the number of times a key occurs, and the number of pairs of gates with equal keys (the last one of
   a key possibly alone) *)
Fixpoint occ (k : key) (gs : list PlonkGate) : nat :=
  match gs with [] => 0 | g :: r => (if key_eqb k (str_key g) then 1 else 0) + occ k r end.
Fixpoint look (k : key) (u : list (key * nat)) : nat :=
  match u with [] => 0 | (k', n) :: r => if key_eqb k k' then n else look k r end.
Definition pairs (u : list (key * nat)) : nat := fold_right (fun x acc => (snd x - 1) / 2 + 1 + acc) 0 u.

Lemma key_eqb_refl k : key_eqb k k = true. Proof. apply key_eqb_eq. reflexivity. Qed.
Lemma key_eqb_neq a b : a <> b -> key_eqb a b = false.
Proof. intros H. destruct (key_eqb a b) eqn:E; [apply key_eqb_eq in E; contradiction|reflexivity]. Qed.

Lemma look_bump k k' u : look k (bump k' u) = look k u + (if key_eqb k k' then 1 else 0).
Proof.
  induction u as [|[a n] u IH]; cbn [bump look].
  - destruct (key_eqb k k'); reflexivity.
  - destruct (key_eqb k' a) eqn:E.
    + apply key_eqb_eq in E. subst a. cbn [look]. destruct (key_eqb k k'); lia.
    + cbn [look]. destruct (key_eqb k a) eqn:E2; [|exact IH]. apply key_eqb_eq in E2. subst a.
      destruct (key_eqb k k') eqn:E3; [|lia]. apply key_eqb_eq in E3. subst. rewrite key_eqb_refl in E. discriminate.
Qed.
Lemma look_uses_from k gs : forall u, look k (fold_left (fun u g => bump (str_key g) u) gs u) = look k u + occ k gs.
Proof. induction gs as [|g gs IH]; intros u; cbn [fold_left occ]; [lia|]. rewrite IH, look_bump. lia. Qed.
Lemma look_uses k gs : look k (uses gs) = occ k gs.
Proof. unfold uses. rewrite look_uses_from. reflexivity. Qed.
Lemma occ_app k a b : occ k (a ++ b) = occ k a + occ k b.
Proof. induction a; cbn; lia. Qed.
Lemma uses_app a g : uses (a ++ [g]) = bump (str_key g) (uses a).
Proof. unfold uses. rewrite fold_left_app. reflexivity. Qed.

Lemma half_step n : 1 <= n -> (n + 1 - 1) / 2 = (n - 1) / 2 + (if Nat.odd n then 0 else 1).
Proof.
  intros H. rewrite Nat.add_sub. destruct (Nat.odd n) eqn:E.
  - apply Nat.odd_spec in E. destruct E as [m ->]. replace (2 * m + 1 - 1) with (m * 2) by lia.
    replace (2 * m + 1) with (1 + m * 2) by lia. rewrite Nat.div_add by lia. rewrite Nat.div_mul by lia. cbn. lia.
  - assert (E' : Nat.even n = true) by (rewrite <- Nat.negb_odd, E; reflexivity). apply Nat.even_spec in E'. destruct E' as [m ->].
    replace (2 * m) with (m * 2) by lia. rewrite Nat.div_mul by lia. replace (m * 2 - 1) with (1 + (m - 1) * 2) by lia.
    rewrite Nat.div_add by lia. cbn. lia.
Qed.
Lemma pairs_bump k u : Forall (fun x => 1 <= snd x) u -> pairs (bump k u) = pairs u + (if Nat.odd (look k u) then 0 else 1).
Proof.
  induction u as [|[a n] u IH]; intros F; cbn [bump look pairs fold_right snd]; [reflexivity|]. inversion F; subst. cbn [snd] in *.
  destruct (key_eqb k a).
  - cbn [pairs fold_right snd]. fold (pairs u). rewrite half_step by assumption. lia.
  - cbn [pairs fold_right snd]. fold (pairs u). fold (pairs (bump k u)). rewrite IH by assumption. lia.
Qed.
Lemma bump_pos k u : Forall (fun x => 1 <= snd x) u -> Forall (fun x : key * nat => 1 <= snd x) (bump k u).
Proof.
  induction u as [|[a n] u IH]; intros F; cbn [bump]; [repeat constructor|]. inversion F; subst.
  destruct (key_eqb k a); constructor; cbn [snd] in *; auto. lia.
Qed.
Lemma uses_pos gs : Forall (fun x => 1 <= snd x) (uses gs).
Proof.
  unfold uses. assert (H : Forall (fun x : key * nat => 1 <= snd x) []) by constructor. revert H. generalize (@nil (key * nat)).
  induction gs as [|g gs IH]; intros u F; cbn [fold_left]; [exact F|]. apply IH, bump_pos, F.
Qed.
Lemma pairs_app a g : pairs (uses (a ++ [g])) = pairs (uses a) + (if Nat.odd (occ (str_key g) a) then 0 else 1).
Proof. rewrite uses_app, pairs_bump by apply uses_pos. rewrite look_uses. reflexivity. Qed.

Lemma pairs_fold u : forall a, fold_left (fun acc (x : key * nat) => acc + (snd x - 1) / 2 + 1) u a = a + pairs u.
Proof. induction u as [|x u IH]; intros a; cbn [fold_left pairs fold_right]; [lia|]. rewrite IH. fold (pairs u). lia. Qed.
Lemma plonk_info_eq gs : plonk_info gs = (if pairs (uses gs) <? 1 then Panic else Ok ((pairs (uses gs) - 1) / 2 + 1)).
Proof. unfold plonk_info. rewrite pairs_fold. cbn [Nat.add]. unfold usub. destruct (pairs (uses gs) <? 1); reflexivity. Qed.

(* ---- progress and the bound ---- *)
Definition room (done : list PlonkGate) (r0 : nat) (l : layout) : Prop :=
  row l <= r0 + pairs (uses done) /\ (forall k, In k (map fst (partial l)) <-> Nat.odd (occ k done) = true).

Lemma odd_S n : Nat.odd (n + 1) = negb (Nat.odd n).
Proof. rewrite Nat.add_comm, Nat.odd_add. destruct (Nat.odd n); reflexivity. Qed.

Lemma place_progress d r0 t0 done l cnt g : inv r0 t0 done l cnt -> room done r0 l ->
  r0 + pairs (uses (done ++ [g])) <= n_used d -> r0 + pairs (uses (done ++ [g])) <= n_rows d ->
  exists l', place d l g = Ok l' /\ room (done ++ [g]) r0 l'.
Proof.
  intros I [R1 R2] B1 B2. pose proof I as I0. destruct I as [LOW IN OUT PAR PND HF HND ODD TWO USED ALL SEL FR].
  rewrite pairs_app in *.
  assert (OC : forall k, occ k (done ++ [g]) = occ k done + if key_eqb k (str_key g) then 1 else 0) by (intros k; rewrite occ_app; cbn; lia).
  assert (CR : forall q, cnt q <> 0 -> q < row l).
  { intros q Hq. destruct (Nat.leb_spec r0 q); destruct (Nat.ltb_spec q (row l)); try lia; exfalso; apply Hq, OUT; lia. }
  unfold place. destruct (pget (str_key g) (partial l)) as [[r n]|] eqn:EP.
  - pose proof (pget_some _ _ _ EP) as P. destruct (PAR _ _ _ P) as [En [Hn _]].
    assert (OD : Nat.odd (occ (str_key g) done) = true) by (apply R2; apply (in_map fst) in P; exact P).
    rewrite OD in *. assert (r < row l) by (apply CR; lia).
    destruct (set_ss_ok d r [(n * 3, g_sl g); (n * 3 + 1, g_sr g); (n * 3 + 2, g_so g)] (tb l)) as [t E]; [cols|lia|].
    rewrite E. cbn [bind].
    assert (RM : forall k, In k (map fst (premove (str_key g) (partial l))) <-> Nat.odd (occ k (done ++ [g])) = true).
    { intros k. rewrite OC. split.
      - intros X. apply in_map_iff in X. destruct X as [e [<- X]]. apply in_premove in X. destruct X as [X N]. rewrite key_eqb_neq by exact N. rewrite Nat.add_0_r.
        apply R2, in_map, X.
      - intros X. destruct (key_eqb k (str_key g)) eqn:EK.
        + apply key_eqb_eq in EK. subst k. rewrite odd_S, OD in X. discriminate.
        + rewrite Nat.add_0_r in X. apply R2, in_map_iff in X. destruct X as [e [<- X]]. apply in_map_iff. exists e. split; [reflexivity|]. apply in_premove. split; [exact X|].
          intros Y. rewrite Y, key_eqb_refl in EK. discriminate. }
    destruct Hn as [-> | ->]; cbn [Nat.add Nat.eqb]; eexists; (split; [reflexivity|]); split; cbn [row partial]; try exact RM; rewrite pairs_app, OD; lia.
  - pose proof (pget_none _ _ EP) as P.
    assert (OD : Nat.odd (occ (str_key g) done) = false) by (destruct (Nat.odd _) eqn:E; [exfalso; apply P, R2, E|reflexivity]).
    rewrite OD in *.
    assert (RA : forall v, forall k, In k (map fst (partial l ++ [(str_key g, v)])) <-> Nat.odd (occ k (done ++ [g])) = true).
    { intros v k. rewrite OC, map_app, in_app_iff. cbn [map fst In]. destruct (key_eqb k (str_key g)) eqn:EK.
      - apply key_eqb_eq in EK. subst k. rewrite odd_S, OD. cbn. tauto.
      - rewrite Nat.add_0_r, R2. split; [intros [X|[X|[]]]; [exact X|]; subst k; rewrite key_eqb_refl in EK; discriminate|auto]. }
    destruct (half l) as [|[r n] hs] eqn:EH.
    + destruct (set_cs_ok d (row l) (consts 0 g) (tb l)) as [t1 E1]; [cols|lia|]. rewrite E1. cbn [bind].
      destruct (set_sels_ok d (row l) [(GATE, f1); (POSEIDON12, f0); (PARTIAL, f0); (CMULADD, f0); (EVPOL4, f0); (FFT4, f0)] t1) as [t2 E2]; [lia|]. rewrite E2. cbn [bind].
      destruct (set_ss_ok d (row l) [(0, g_sl g); (1, g_sr g); (2, g_so g)] t2) as [t3 E3]; [cols|lia|]. rewrite E3. cbn [bind].
      eexists. split; [reflexivity|]. split; cbn [row partial]; [rewrite pairs_app, OD; lia|apply RA].
    + destruct (HF r n) as [-> C2]; [left; reflexivity|]. assert (r < row l) by (apply CR; lia).
      destruct (set_cs_ok d r (consts 6 g) (tb l)) as [t1 E1]; [cols|lia|]. rewrite E1. cbn [bind].
      destruct (set_ss_ok d r [(2 * 3, g_sl g); (2 * 3 + 1, g_sr g); (2 * 3 + 2, g_so g)] t1) as [t3 E3]; [cols|lia|]. rewrite E3. cbn [bind].
      eexists. split; [reflexivity|]. split; cbn [row partial]; [rewrite pairs_app, OD; lia|apply RA].
Qed.

Lemma pairs_mono a b : pairs (uses a) <= pairs (uses (a ++ b)).
Proof.
  revert a. induction b as [|g b IH]; intros a; [rewrite app_nil_r; lia|].
  replace (a ++ g :: b) with ((a ++ [g]) ++ b) by (rewrite <- app_assoc; reflexivity). specialize (IH (a ++ [g])). rewrite pairs_app in IH. lia.
Qed.

Lemma place_fold_total d r0 t0 gs : forall done l cnt, inv r0 t0 done l cnt -> room done r0 l ->
  r0 + pairs (uses (done ++ gs)) <= n_used d -> r0 + pairs (uses (done ++ gs)) <= n_rows d ->
  exists l' cnt', foldM (place d) gs l = Ok l' /\ inv r0 t0 (done ++ gs) l' cnt' /\ room (done ++ gs) r0 l'.
Proof.
  induction gs as [|g gs IH]; intros done l cnt I R B1 B2; cbn [foldM].
  - rewrite app_nil_r in *. eauto.
  - replace (done ++ g :: gs) with ((done ++ [g]) ++ gs) in * by (rewrite <- app_assoc; reflexivity). pose proof (pairs_mono (done ++ [g]) gs).
    destruct (place_progress d r0 t0 done l cnt g I R) as [l1 [E1 R1]]; [lia|lia|]. rewrite E1. cbn [bind].
    destruct (place_step _ _ _ _ _ _ _ _ I E1) as [c1 I1]. exact (IH _ _ _ I1 R1 B1 B2).
Qed.

Lemma terminate_total d L : forall t h, (forall k q n, In (k, (q, n)) L -> (n = 1 \/ n = 3) /\ q < n_used d) ->
  exists t' h', foldM (terminate_one d) L (t, h) = Ok (t', h') /\ (forall q m, In (q, m) h' -> In (q, m) h \/ exists k n, In (k, (q, n)) L).
Proof.
  induction L as [|[k [q n]] L IH]; intros t h H; cbn [foldM].
  - exists t, h. split; [reflexivity|]. auto.
  - destruct (H k q n) as [Hn Hq]; [left; reflexivity|]. unfold terminate_one at 1. destruct Hn as [-> | ->]; cbn [Nat.eqb].
    + destruct (set_ss_ok d q [(3, sm t 0 q); (4, sm t 1 q); (5, sm t 2 q)] t) as [t1 E1]; [cols|exact Hq|]. rewrite E1. cbn [bind].
      destruct (IH t1 (h ++ [(q, 1 + 1)])) as [t' [h' [E' X]]]; [intros; apply (H k0); right; assumption|]. exists t', h'. split; [exact E'|].
      intros q' m Hm. destruct (X q' m Hm) as [Y|[k' [n' Y]]]; [|right; exists k', n'; right; exact Y].
      apply in_app_or in Y. destruct Y as [Y|[[= <- <-]|[]]]; [left; exact Y|]. right. exists k, 1. left. reflexivity.
    + destruct (set_ss_ok d q [(9, sm t 6 q); (10, sm t 7 q); (11, sm t 8 q)] t) as [t1 E1]; [cols|exact Hq|]. rewrite E1. cbn [bind].
      destruct (IH t1 h) as [t' [h' [E' X]]]; [intros; apply (H k0); right; assumption|]. exists t', h'. split; [exact E'|].
      intros q' m Hm. destruct (X q' m Hm) as [Y|[k' [n' Y]]]; [left; exact Y|right; exists k', n'; right; exact Y].
Qed.
Lemma clear_total d h : forall t, (forall q m, In (q, m) h -> q < n_used d /\ q < n_rows d) -> exists t', foldM (clear_half d) h t = Ok t'.
Proof.
  induction h as [|[q m] h IH]; intros t H; cbn [foldM]; [eauto|]. destruct (H q m) as [H1 H2]; [left; reflexivity|].
  unfold clear_half at 1. cbn [fst].
  destruct (set_ss_ok d q [(6, 0); (7, 0); (8, 0); (9, 0); (10, 0); (11, 0)] t) as [t1 E1]; [cols|exact H1|]. rewrite E1. cbn [bind].
  destruct (set_cs_ok d q [(9, f0); (6, f0); (7, f0); (8, f0); (10, f0); (11, f0)] t1) as [t2 E2]; [cols|exact H2|]. rewrite E2. cbn [bind].
  apply IH. intros; apply (H q0 m0); right; assumption.
Qed.

Section Order.
  Variable order : partials -> partials.
  Hypothesis order_perm : forall l, Permutation (order l) l.

  (* a row per pair of gates with equal constants is enough *)
  Theorem place_total d gs t0 r0 : r0 + pairs (uses gs) <= n_used d -> r0 + pairs (uses gs) <= n_rows d ->
    exists t r, place_gates order d gs t0 r0 = Ok (t, r) /\ r <= r0 + pairs (uses gs).
  Proof.
    intros B1 B2. unfold place_gates.
    destruct (place_fold_total d r0 t0 gs [] (mkL t0 r0 [] []) (fun _ => 0) (inv_init t0 r0)) as [l [cnt [E [I R]]]].
    - split; cbn; [lia|]. intros k. split; [contradiction|discriminate].
    - exact B1.
    - exact B2.
    - cbn [app] in *. rewrite E. cbn [bind]. destruct R as [R _]. destruct I as [LOW IN OUT PAR PND HF HND ODD TWO USED ALL SEL FR].
      assert (CR : forall q, cnt q <> 0 -> q < row l).
      { intros q Hq. destruct (Nat.leb_spec r0 q); destruct (Nat.ltb_spec q (row l)); try lia; exfalso; apply Hq, OUT; lia. }
      destruct (terminate_total d (order (partial l)) (tb l) (half l)) as [t1 [h1 [E1 X]]].
      { intros k q n Hi. apply (Permutation_in _ (order_perm _)) in Hi. destruct (PAR _ _ _ Hi) as [A [B _]]. split; [exact B|].
        assert (q < row l) by (apply CR; lia). lia. }
      rewrite E1. cbn [bind]. destruct (clear_total d h1 t1) as [t2 E2].
      { intros q m Hm. assert (q < row l); [|lia]. apply CR. destruct (X q m Hm) as [Y|[k [n Y]]].
        - destruct (HF q m Y). lia.
        - apply (Permutation_in _ (order_perm _)) in Y. destruct (PAR _ _ _ Y). lia. }
      rewrite E2. cbn [bind]. exists t2, (row l). split; [reflexivity|exact R].
  Qed.

  Lemma set_sels_np d r l : forall t, set_sels d r l t <> Err /\ set_sels d r l t <> Hang.
  Proof.
    unfold set_sels. induction l as [|x l IH]; intros t; cbn [foldM]; [split; discriminate|].
    unfold set_sel at 1 3. destruct (r <? n_rows d); cbn [bind]; [apply IH|split; discriminate].
  Qed.
  Lemma set_cs_np d r l : forall t, set_cs d r l t <> Err /\ set_cs d r l t <> Hang.
  Proof.
    unfold set_cs. induction l as [|x l IH]; intros t; cbn [foldM]; [split; discriminate|].
    unfold set_c at 1 3. destruct ((fst x <? 12) && (r <? n_rows d)); cbn [bind]; [apply IH|split; discriminate].
  Qed.

  (* gates with pairwise different constants take a row each *)
  Lemma place_distinct d gs : forall l, half l = [] -> NoDup (map fst (partial l) ++ map str_key gs) ->
    row l <= n_used d < row l + length gs -> foldM (place d) gs l = Panic.
  Proof.
    induction gs as [|g gs IH]; intros l Hh ND B; cbn [length] in B; [lia|]. cbn [foldM map] in *.
    assert (NI : pget (str_key g) (partial l) = None).
    { destruct (pget _ _) as [v|] eqn:E; [|reflexivity]. exfalso. apply pget_some, (in_map fst) in E. cbn [fst] in E.
      apply NoDup_remove_2 in ND. apply ND, in_or_app. left. exact E. }
    unfold place at 1. rewrite NI, Hh. destruct (set_cs d (row l) (consts 0 g) (tb l)) as [t1| | |] eqn:E1; cbn [bind].
    - destruct (set_sels d (row l) _ t1) as [t2| | |] eqn:E2; cbn [bind].
      + destruct (Nat.eq_dec (row l) (n_used d)) as [E|N].
        * unfold set_ss. cbn [foldM fst snd]. unfold set_s at 1. rewrite E, Nat.ltb_irrefl. reflexivity.
        * destruct (set_ss_ok d (row l) [(0, g_sl g); (1, g_sr g); (2, g_so g)] t2) as [t3 E3]; [cols|lia|]. rewrite E3. cbn [bind].
          apply IH; cbn [half row partial]; [reflexivity| |lia]. rewrite map_app. cbn [map fst]. rewrite <- app_assoc. exact ND.
      + exfalso. exact (proj1 (set_sels_np _ _ _ _) E2).
      + reflexivity.
      + exfalso. exact (proj2 (set_sels_np _ _ _ _) E2).
    - exfalso. exact (proj1 (set_cs_np _ _ _ _) E1).
    - reflexivity.
    - exfalso. exact (proj2 (set_cs_np _ _ _ _) E1).
  Qed.
  Lemma pairs_distinct gs : NoDup (map str_key gs) -> pairs (uses gs) = length gs.
  Proof.
    induction gs as [|g gs IH] using rev_ind; [reflexivity|]. rewrite map_app. cbn [map]. intros ND.
    rewrite pairs_app, app_length. cbn [length]. rewrite IH by (apply NoDup_remove_1 in ND; rewrite app_nil_r in ND; exact ND).
    assert (Z : occ (str_key g) gs = 0).
    { apply NoDup_remove_2 in ND. rewrite app_nil_r in ND. clear IH. induction gs as [|h gs IH]; cbn [occ]; [reflexivity|]. cbn [map In] in ND.
      rewrite key_eqb_neq by (intros E; apply ND; left; symmetry; exact E). apply IH. intros X. apply ND. right. exact X. }
    rewrite Z. reflexivity.
  Qed.
  Theorem budget_refuted d gs t0 r0 : NoDup (map str_key gs) -> 2 <= length gs ->
    exists n, plonk_info gs = Ok n /\ n < length gs /\ (n_used d = r0 + n -> place_gates order d gs t0 r0 = Panic).
  Proof.
    intros ND L. rewrite plonk_info_eq, pairs_distinct by exact ND. destruct (Nat.ltb_spec (length gs) 1); [lia|].
    exists ((length gs - 1) / 2 + 1). assert (B : (length gs - 1) / 2 + 1 < length gs).
    { pose proof (Nat.div_mod (length gs - 1) 2 ltac:(lia)). pose proof (Nat.mod_upper_bound (length gs - 1) 2 ltac:(lia)). lia. }
    split; [reflexivity|]. split; [exact B|]. intros E. unfold place_gates. rewrite place_distinct; [reflexivity|reflexivity|exact ND|].
    cbn [row]. lia.
  Qed.
End Order.

Lemma reserved_rows gs : gs <> [] -> plonk_info gs = Ok ((pairs (uses gs) - 1) / 2 + 1).
Proof.
  intros N. rewrite plonk_info_eq. destruct (Nat.ltb_spec (pairs (uses gs)) 1); [|reflexivity]. exfalso.
  destruct gs as [|g gs]; [congruence|]. pose proof (pairs_mono [g] gs) as M. pose proof (pairs_app [] g) as P. cbn [app] in *. change (occ (str_key g) []) with 0 in P. change (Nat.odd 0) with false in P. rewrite P in M. lia.
Qed.
