(* The whole compressor setup: what its table accepts. *)
From Verif Require Import Base GlModel FrField Cubic PolyModel Roots ListAux PlonkModel PlonkProof CompressorModel CompressorPil ConnectProof PlaceProof BudgetProof SetupProof.
From Coq Require Import Permutation Field.
Open Scope nat_scope.
Add Field FrFE : Fr_field.

Lemma set_ss_bound d q l t t' : set_ss d q l t = Ok t' -> l <> [] -> q < n_used d.
Proof. destruct l as [|x l]; [congruence|]. intros H _. unfold set_ss in H. cbn [foldM] in H. bi H. unfold set_s in E. destruct ((fst x <? 12) && (q <? n_used d)) eqn:B; [|discriminate]. apply andb_prop in B. destruct B as [_ B]. apply Nat.ltb_lt in B. exact B. Qed.
Lemma set_sels_bound d q l t t' : set_sels d q l t = Ok t' -> l <> [] -> q < n_rows d.
Proof. destruct l as [|x l]; [congruence|]. intros H _. unfold set_sels in H. cbn [foldM] in H. bi H. unfold set_sel in E. destruct (q <? n_rows d) eqn:B; [|discriminate]. apply Nat.ltb_lt in B. exact B. Qed.

Lemma place_fold_bound d gs : forall l l', foldM (place d) gs l = Ok l' -> row l <= row l' /\ (row l = row l' \/ (row l' <= n_used d /\ row l' <= n_rows d)).
Proof.
  induction gs as [|g gs IH]; intros l l' H; cbn [foldM] in H; [injection H as <-; split; [lia|left; reflexivity]|]. bi H. apply IH in H. clear IH.
  assert (S : row l <= row x /\ (row l = row x \/ (row x <= n_used d /\ row x <= n_rows d))); [|lia].
  clear H. unfold place in E. destruct (pget _ _) as [[r n]|].
  - bi E. destruct (n + 1 =? 2); [|destruct (n + 1 =? 4)]; injection E as <-; cbn [row]; split; lia.
  - destruct (half l) as [|[r n] hs].
    + bi E. bi E. bi E. injection E as <-. cbn [row]. apply set_sels_bound in E1; [|discriminate]. apply set_ss_bound in E2; [|discriminate]. split; [lia|right; lia].
    + bi E. bi E. injection E as <-. cbn [row]. split; lia.
Qed.
Lemma place_bound order d gs t0 r0 t r : place_gates order d gs t0 r0 = Ok (t, r) -> r = r0 \/ (r <= n_used d /\ r <= n_rows d).
Proof.
  unfold place_gates. intros H. bi H. bi H. destruct x0 as [t1 h]. bi H. injection H as <- <-. apply place_fold_bound in E. cbn [row] in E. destruct E as [_ [E|E]]; auto.
Qed.

(* the GATE selector stays off from row r on *)
Definition goff (r : nat) (t : tables) : Prop := forall q, r <= q -> sel t GATE q = f0.
Lemma go_le r r' t : r <= r' -> goff r t -> goff r' t. Proof. intros H G q Hq. apply G. lia. Qed.
Lemma go_s d r c q v t t' : goff r t -> set_s d c q v t = Ok t' -> goff r t'.
Proof. intros G. unfold set_s. destruct (_ && _); [|discriminate]. intros [= <-]. exact G. Qed.
Lemma go_c d r c q v t t' : goff r t -> set_c d c q v t = Ok t' -> goff r t'.
Proof. intros G. unfold set_c. destruct (_ && _); [|discriminate]. intros [= <-]. exact G. Qed.
Lemma go_fold {A} r (f : tables -> A -> res tables) l : (forall t x t', In x l -> goff r t -> f t x = Ok t' -> goff r t') -> forall t t', goff r t -> foldM f l t = Ok t' -> goff r t'.
Proof.
  induction l as [|x l IH]; intros H t t' G E; cbn [foldM] in E; [injection E as <-; exact G|]. bi E.
  eapply IH; [| |exact E]; [intros; eapply H; [right| |]; eassumption|]. eapply H; [left; reflexivity|exact G|exact E0].
Qed.
Lemma go_ss d r q l t t' : goff r t -> set_ss d q l t = Ok t' -> goff r t'.
Proof. intros G. apply go_fold; [|exact G]. intros. eapply go_s; eassumption. Qed.
Lemma go_cs d r q l t t' : goff r t -> set_cs d q l t = Ok t' -> goff r t'.
Proof. intros G. apply go_fold; [|exact G]. intros. eapply go_c; eassumption. Qed.
Lemma go_sels d r q l t t' : goff r t -> Forall (fun p => match fst p with GATE => snd p = f0 | _ => True end) l -> set_sels d q l t = Ok t' -> goff r t'.
Proof.
  intros G F. apply go_fold; [|exact G]. intros t1 [n v] t2 Hi G1 E. rewrite Forall_forall in F. specialize (F _ Hi). cbn [fst snd] in *.
  unfold set_sel in E. destruct (_ <? _); [|discriminate]. injection E as <-. intros x Hx. cbn [sel]. destruct n; cbn [sel_eqb andb]; try apply G1, Hx.
  destruct (x =? q); [exact F|apply G1, Hx].
Qed.
Ltac got := repeat match goal with
  | G : goff ?r ?t |- goff ?r ?t => exact G
  | G : goff ?r ?t, H : set_s _ _ _ _ ?t = Ok ?t' |- _ => apply (go_s _ r _ _ _ _ _ G) in H
  | G : goff ?r ?t, H : set_c _ _ _ _ ?t = Ok ?t' |- _ => apply (go_c _ r _ _ _ _ _ G) in H
  | G : goff ?r ?t, H : set_ss _ _ _ ?t = Ok ?t' |- _ => apply (go_ss _ r _ _ _ _ G) in H
  | G : goff ?r ?t, H : set_cs _ _ _ ?t = Ok ?t' |- _ => apply (go_cs _ r _ _ _ _ G) in H
  | G : goff ?r ?t, H : set_sels _ _ ?l ?t = Ok ?t' |- _ => apply (go_sels _ r _ _ _ _ G) in H; [|repeat constructor]
  end.

Lemma put_custom_go p cp gi d t r c t' r' : goff p t -> put_custom cp gi d (t, r) c = Ok (t', r') -> goff p t'.
Proof.
  intros G. unfold put_custom. destruct (cg_id c =? poseidon_id gi).
  - intros H. bi H. injection H as <- <-. unfold put_poseidon in E. destruct (negb _); [discriminate|].
    revert E. apply go_fold; [|exact G]. intros t1 j t2 _ G1 H. unfold put_poseidon_row in H. bi H. bi H. bi H.
    eapply (go_fold p) in E; [| |exact G1].
    + clear G G1. got.
    + intros t3 k t4 _ G3 H'. bi H'. bi H'. bi H'. got.
  - destruct (cg_id c =? c_mul_add_id gi).
    + intros H. bi H. injection H as <- <-. unfold put_cmuladd in E. bi E. bi E.
      assert (S1 : goff p x0).
      { destruct (r <? n_used d); [|injection E0 as <-; exact G]. revert E0. apply go_fold; [|exact G]. intros t3 k t4 _ G3 H'. bi H'. got. }
      clear G. got.
    + destruct (fft_get (cg_id c) (fft_params gi)).
      * intros H. bi H. injection H as <- <-. unfold put_fft in E. bi E. bi E. bi E. bi E. bi E. bi E. bi E. bi E. bi E.
        assert (S1 : goff p x0).
        { revert E0. apply go_fold; [|exact G]. intros t3 k t4 _ G3 H'. bi H'. bi H'. bi H'. got. }
        clear G E0. got.
        assert (S2 : goff p x7).
        { destruct (Z.eqb (fint x3) 4); [bi E7; got|]. destruct (Z.eqb (fint x3) 2); [bi E7; got|discriminate]. }
        got.
      * destruct (cg_id c =? ev_pol_id gi); [|discriminate]. intros H. bi H. injection H as <- <-. unfold put_evpol in E. bi E. bi E. bi E. bi E.
        apply (go_fold p) in E0; [| |exact G]. 2:{ intros t3 k t4 _ G3 H'. bi H'. bi H'. got. }
        apply (go_fold p) in E1; [| |exact E0]. 2:{ intros t3 k t4 _ G3 H'. bi H'. bi H'. got. }
        apply (go_fold p) in E2; [| |exact E1]. 2:{ intros t3 k t4 _ G3 H'. bi H'. got. }
        got.
Qed.

Lemma put_custom_bound cp gi d t r c t' r' : put_custom cp gi d (t, r) c = Ok (t', r') -> r' <= n_rows d.
Proof.
  unfold put_custom. destruct (cg_id c =? poseidon_id gi).
  - intros H. bi H. injection H as <- <-. unfold put_poseidon in E. destruct (negb _); [discriminate|].
    change (seq 0 31) with (seq 0 30 ++ [30]) in E. rewrite foldM_app in E. bi E. cbn [foldM] in E. bi E. unfold put_poseidon_row in E1. bi E1. bi E1. bi E1.
    apply set_sels_bound in E3; [lia|discriminate].
  - destruct (cg_id c =? c_mul_add_id gi).
    + intros H. bi H. injection H as <- <-. unfold put_cmuladd in E. bi E. bi E. apply set_sels_bound in E1; [lia|discriminate].
    + destruct (fft_get (cg_id c) (fft_params gi)).
      * intros H. bi H. injection H as <- <-. unfold put_fft in E. bi E. bi E. bi E. apply set_sels_bound in E2; [lia|discriminate].
      * destruct (cg_id c =? ev_pol_id gi); [|discriminate]. intros H. bi H. injection H as <- <-. unfold put_evpol in E. bi E. bi E. bi E. bi E.
        apply set_sels_bound in E; [lia|discriminate].
Qed.
Lemma customs_more p cp gi d us : forall t r t' r', goff p t -> r <= n_rows d -> foldM (put_custom cp gi d) us (t, r) = Ok (t', r') -> goff p t' /\ r' <= n_rows d.
Proof.
  induction us as [|u us IH]; intros t r t' r' G B H; cbn [foldM] in H; [injection H as <- <-; auto|]. bi H. destruct x as [t1 r1].
  eapply IH; [| |exact H]; [exact (put_custom_go _ _ _ _ _ _ _ _ _ G E)|exact (put_custom_bound _ _ _ _ _ _ _ _ E)].
Qed.
Lemma fill_go d p l : forall t t', goff p t -> foldM (fill_row d) l t = Ok t' -> goff p t'.
Proof. intros t t' G. apply go_fold; [|exact G]. intros t1 q t2 _ G1 H. unfold fill_row in H. bi H. got. Qed.

(* ---- the gate identities of a row ---- *)
Definition gval (g : PlonkGate) (x y z : Fr) : Fr :=
  fadd (fadd (fadd (fadd (fmul (g_qm g) (fmul x y)) (fmul (g_ql g) x)) (fmul (g_qr g) y)) (fmul (g_qo g) z)) (g_qc g).
Lemma gate_ok_gval n W g x y z : zgate n g -> (g_sl g <> 0 -> x = W (g_sl g)) -> (g_sr g <> 0 -> y = W (g_sr g)) -> (g_so g <> 0 -> z = W (g_so g)) ->
  (gate_ok W g <-> gval g x y z = f0).
Proof.
  intros [Z1 [Z2 [Z3 _]]] H1 H2 H3. unfold gate_ok, gval.
  assert (E1 : fmul (g_ql g) x = fmul (g_ql g) (W (g_sl g))).
  { destruct (Nat.eq_dec (g_sl g) 0) as [E|N]; [destruct (Z1 E) as [_ ->]; ring|rewrite (H1 N); reflexivity]. }
  assert (E2 : fmul (g_qr g) y = fmul (g_qr g) (W (g_sr g))).
  { destruct (Nat.eq_dec (g_sr g) 0) as [E|N]; [destruct (Z2 E) as [_ ->]; ring|rewrite (H2 N); reflexivity]. }
  assert (E3 : fmul (g_qo g) z = fmul (g_qo g) (W (g_so g))).
  { destruct (Nat.eq_dec (g_so g) 0) as [E|N]; [rewrite (Z3 E); ring|rewrite (H3 N); reflexivity]. }
  assert (E4 : fmul (g_qm g) (fmul x y) = fmul (fmul (g_qm g) (W (g_sl g))) (W (g_sr g))).
  { destruct (Nat.eq_dec (g_sl g) 0) as [E|N]; [destruct (Z1 E) as [-> _]; ring|]. rewrite (H1 N).
    destruct (Nat.eq_dec (g_sr g) 0) as [E|N2]; [destruct (Z2 E) as [-> _]; ring|rewrite (H2 N2); ring]. }
  rewrite E1, E2, E3, E4. reflexivity.
Qed.
Lemma pil_gate_on t q a : Forall (fun v => v = f0) (pil_gate f1 (fun c => cm t c q) (fun c => a c q)) <->
  (forall s, s < 4 -> gval (slot t q s) (a (3 * s) q) (a (3 * s + 1) q) (a (3 * s + 2) q) = f0).
Proof.
  assert (M1 : forall x, fmul x f1 = x) by (intros; ring).
  unfold pil_gate. rewrite !M1. unfold gval, slot. cbn [g_qm g_ql g_qr g_qo g_qc]. split.
  - intros F s Hs. inversion F as [|? ? A1 F1]; subst. inversion F1 as [|? ? A2 F2]; subst. inversion F2 as [|? ? A3 F3]; subst. inversion F3 as [|? ? A4 _]; subst.
    destruct s as [|[|[|[|s]]]]; [exact A1|exact A2|exact A3|exact A4|lia].
  - intros H. repeat apply Forall_cons; try apply Forall_nil; [exact (H 0 ltac:(lia))|exact (H 1 ltac:(lia))|exact (H 2 ltac:(lia))|exact (H 3 ltac:(lia))].
Qed.
Lemma pil_gate_off C a : Forall (fun v => v = f0) (pil_gate f0 C a).
Proof. unfold pil_gate. repeat constructor; ring. Qed.

(* ---- reading an assignment off a table ---- *)
Definition extract (d : dims) (smap : grid nat) (r : nat) (a : grid Fr) (k : nat) : Fr :=
  if k =? 0 then f1 else match find (fun ij => sig d smap (snd ij, fst ij) =? k) (cells r) with Some (i, j) => a j i | None => f0 end.
Lemma cells_used r i j : In (i, j) (cells r) <-> used_cell r (j, i).
Proof.
  unfold cells, used_cell. cbn [fst snd]. rewrite in_flat_map. split.
  - intros [x [Hx Hi]]. apply in_map_iff in Hi. destruct Hi as [y [[= <- <-] Hy]]. rewrite in_seq in *. lia.
  - intros [H1 H2]. exists i. split; [apply in_seq; lia|]. apply in_map_iff. exists j. split; [reflexivity|apply in_seq; lia].
Qed.
Lemma extract_ok d smap r (a : grid Fr) :
  (forall x y, used_cell r x -> used_cell r y -> sig d smap x = sig d smap y -> sig d smap x <> 0 -> a (fst x) (snd x) = a (fst y) (snd y)) ->
  forall x, used_cell r x -> sig d smap x <> 0 -> a (fst x) (snd x) = extract d smap r a (sig d smap x).
Proof.
  intros H [j i] U N. unfold extract. destruct (Nat.eqb_spec (sig d smap (j, i)) 0); [contradiction|].
  destruct (find _ (cells r)) as [[i' j']|] eqn:E.
  - apply find_some in E. cbn [fst snd] in E. destruct E as [E1 E2]. apply cells_used in E1. apply Nat.eqb_eq in E2. apply (H (j, i) (j', i')); auto.
  - exfalso. apply (find_none _ _ E (i, j)) in U || (apply cells_used in U; apply (find_none _ _ E) in U; cbn [fst snd] in U; rewrite Nat.eqb_refl in U; discriminate).
Qed.

Section Top.
  Variable order : partials -> partials.
  Hypothesis order_perm : forall l, Permutation (order l) l.
  Variable cposeidon : list Z.

  Definition table_of (t : tables) (d : dims) (W : nat -> Fr) : grid Fr := fun c i => let k := sig d (sm t) (c, i) in if k =? 0 then f0 else W k.

  Theorem compressor_ok c fb s t sp r :
    1 <= num_variables (base c) -> Forall (wf_constraint (num_variables (base c))) (constraints (base c)) ->
    Forall (fun k => ~ const_side k) (constraints (base c)) ->
    plonk_setup_render c fb = Ok s -> plonk_setup_compressor order cposeidon c s = Ok (t, sp, r) ->
    su_bits s <= 32 -> n_used (su_dims s) <= n_rows (su_dims s) ->
    exists f g,
      (forall x, f (g x) = x) /\ (forall x, g (f x) = x) /\
      (forall col i, col < 12 -> i < 2 ^ su_bits s -> sp col i = label (su_bits s) (fst (f (col, i))) (snd (f (col, i)))) /\
      (forall i, i < su_publics s -> sm t (i mod 12) (i / 12) = 1 + i) /\
      (forall a : grid Fr,
         (forall q, q < 2 ^ su_bits s -> Forall (fun v => v = f0) (pil_gate (sel t GATE q) (fun k => cm t k q) (fun k => a k q))) ->
         (forall x, a (fst (f x)) (snd (f x)) = a (fst x) (snd x)) ->
         exists w, length w = num_variables (base c) /\ wire w 0 = f1 /\ Forall (r1cs_ok (wire w)) (constraints (base c)) /\
           (forall col i, col < 12 -> i < r -> i < n_used (su_dims s) -> sm t col i <> 0 -> sm t col i < num_variables (base c) -> a col i = wire w (sm t col i))) /\
      (forall w, length w = num_variables (base c) -> wire w 0 = f1 -> Forall (r1cs_ok (wire w)) (constraints (base c)) ->
         let a := table_of t (su_dims s) (wire (ext w (su_adds s))) in
         (forall q, q < 2 ^ su_bits s -> Forall (fun v => v = f0) (pil_gate (sel t GATE q) (fun k => cm t k q) (fun k => a k q))) /\
         (forall x, a (fst (f x)) (snd (f x)) = a (fst x) (snd x))).
  Proof.
    intros Hv HW HC HR HS Hb Hu.
    destruct (plonk_equiv _ Hv HW HC) as [pc [pa [EP [PE1 PE2]]]]. pose proof (gates_z _ _ _ Hv HW EP) as GZ.
    unfold plonk_setup_render in HR. rewrite EP in HR. cbn [bind] in HR. bi HR. bi HR. bi HR. bi HR. bi HR. bi HR. injection HR as HR. subst s. clear E E0 E1 E2 E4.
    set (bits := if 0 <? fb then fb else Z.to_nat (log2_any (Z.of_nat x4)) + 1) in *. clearbody bits.
    set (dd := mkD (x3 + x + x1) (2 ^ bits)) in *.
    unfold plonk_setup_compressor in HS. cbn [su_dims su_bits su_publics su_gates su_adds su_info] in *. fold dd in HS.
    assert (DR : n_rows dd = 2 ^ bits) by reflexivity. clearbody dd.
    bi HS. rewrite E3 in E. injection E as <-. bi HS. bi HS. destruct x6 as [t2 r2]. bi HS. destruct x6 as [t3 r3]. bi HS. bi HS. bi HS. bi HS. injection HS as <- <- <-.
    rename E into EPub, E0 into EPl, E1 into ECu, E2 into EKs, E4 into EMg, E5 into ECon, E6 into EFill, x3 into npr, x2 into npub.
    unfold n_public_rows in E3. bi E3. unfold usub in E. destruct (Nat.ltb_spec npub 1) as [L|L]; [discriminate|]. assert (E3' : (npub - 1) / 12 + 1 = npr) by congruence.
    clear E E3. rename E3' into E3.
    pose proof (public_rows_ok dd npub npr _ _ (eq_sym E3) L EPub (fun _ _ => eq_refl)) as [PB1 [PB2 PB3]].
    pose proof (place_gates_ok order order_perm _ _ _ _ _ _ EPl) as [PL1 [PL2 [PL3 [PL4 PL5]]]].
    pose proof (place_bound _ _ _ _ _ _ _ EPl) as PB.
    assert (NPR : npr <= n_used dd /\ npr <= n_rows dd).
    { clear - EPub E3 L. unfold public_rows in EPub. bi EPub. bi EPub. destruct npr as [|m]; [lia|]. split.
      - destruct npub as [|k]; [lia|]. rewrite seq_S in E0. cbn [plus] in E0. rewrite foldM_app in E0. bi E0. cbn [foldM] in E0. bi E0.
        unfold set_s in E2. destruct ((k mod 12 <? 12) && (k / 12 <? n_used dd)) eqn:B; [|discriminate]. apply andb_prop in B. destruct B as [_ B]. apply Nat.ltb_lt in B.
        replace (S k - 1) with k in E3 by lia. lia.
      - rewrite (seq_S m 0) in E. cbn [plus] in E. rewrite foldM_app in E. bi E. cbn [foldM] in E. bi E. bi E2. apply set_sels_bound in E4; [lia|discriminate]. }
    assert (G2 : goff r2 t2).
    { intros q Hq. destruct (PL2 q ltac:(lia)) as [_ [_ X]]. rewrite X. apply PB3. }
    pose proof (customs_sb _ _ _ _ _ _ _ _ ECu) as [CS1 CS2].
    assert (R2 : r2 <= n_rows dd) by lia.
    destruct (customs_more r2 _ _ _ _ _ _ _ _ G2 R2 ECu) as [G3 B3].
    pose proof (fill_sb _ _ _ _ _ EFill) as [FS1 [FS2 FS3]].
    pose proof (fill_go _ r2 _ _ _ G3 EFill) as G4.
    assert (SB : same_below r2 t2 x9).
    { eapply sb_trans; [exact CS1|]. eapply sb_le; [|exact FS1]. exact CS2. }
    rewrite (MG_root _ Hb) in EMg. injection EMg as <-.
    destruct (connect_ok dd (sm t3) bits r3 x6 DR Hu B3 Hb EKs) as [S [f [g [EC [FIN [SL [FG [GF [FX COPY]]]]]]]]].
    rewrite ECon in EC. injection EC as <-.
    exists f, g. split; [exact FG|]. split; [exact GF|]. split; [exact SL|].
    assert (SLOT : forall q s, q < r2 -> slot x9 q s = slot t2 q s).
    { intros q s Hq. destruct (SB q Hq) as [A1 [A2 _]]. apply slot_ext; assumption. }
    assert (GROW : forall q, npr <= q < r2 -> sel x9 GATE q = f1).
    { intros q Hq. destruct (SB q ltac:(lia)) as [_ [_ A]]. rewrite A, (PL3 q Hq). reflexivity. }
    assert (GPUB : forall q, q < npr -> sel x9 GATE q = f0).
    { intros q Hq. destruct (SB q ltac:(lia)) as [_ [_ A]]. rewrite A. destruct (PL2 q ltac:(lia)) as [_ [_ X]]. rewrite X. apply PB3. }
    assert (SIG : forall q s, npr <= q < r2 -> s < 4 -> g_sl (slot x9 q s) = sig dd (sm x9) (3 * s, q) /\ g_sr (slot x9 q s) = sig dd (sm x9) (3 * s + 1, q) /\ g_so (slot x9 q s) = sig dd (sm x9) (3 * s + 2, q)).
    { intros q s Hq Hs. unfold sig. cbn [fst snd]. destruct (Nat.ltb_spec q (n_used dd)); [|lia]. auto. }
    split.
    { intros i Hi. assert (IR : i / 12 < npr).
      { rewrite <- E3. assert (i / 12 <= (npub - 1) / 12) by (apply Nat.div_le_mono; lia). lia. }
      destruct (SB (i / 12) ltac:(lia)) as [A _]. rewrite A. destruct (PL2 (i / 12) ltac:(lia)) as [X _]. rewrite X. apply PB1, Hi. }
    rewrite <- FS2 in COPY. split.
    - intros a HG HCp. set (W := extract dd (sm x9) r3 a).
      pose proof (proj1 (COPY Fr (fun x => a (fst x) (snd x))) HCp) as HC'.
      pose proof (extract_ok dd (sm x9) r3 a HC') as HX. fold W in HX.
      assert (GW : Forall (gate_ok W) pc).
      { apply Forall_forall. intros g0 Hg. destruct (PL5 _ Hg) as [q [s [Hq [Hs Es]]]]. rewrite <- (SLOT q s ltac:(lia)) in Es.
        assert (Hz := GZ). rewrite Forall_forall in Hz. specialize (Hz _ Hg).
        specialize (HG q ltac:(lia)). rewrite (GROW q Hq) in HG. apply (pil_gate_on x9 q a) with (s := s) in HG; [|exact Hs]. rewrite Es in HG.
        destruct (SIG q s Hq Hs) as [S1 [S2 S3]]. rewrite Es in S1, S2, S3.
        apply (gate_ok_gval _ W g0 (a (3 * s) q) (a (3 * s + 1) q) (a (3 * s + 2) q) Hz); [| | |exact HG]; intros N.
        - rewrite S1 in *. apply (HX (3 * s, q)); [split; cbn [fst snd]; lia|exact N].
        - rewrite S2 in *. apply (HX (3 * s + 1, q)); [split; cbn [fst snd]; lia|exact N].
        - rewrite S3 in *. apply (HX (3 * s + 2, q)); [split; cbn [fst snd]; lia|exact N]. }
      set (w' := map W (seq 0 (num_variables (base c) + length pa))).
      assert (WW : forall i, i < num_variables (base c) + length pa -> wire w' i = W i).
      { intros i Hi. unfold wire, w'. rewrite (nth_indep _ f0 (W 0)) by (rewrite map_length, seq_length; exact Hi). rewrite map_nth, seq_nth by exact Hi. reflexivity. }
      assert (GW' : Forall (gate_ok (wire w')) pc).
      { apply Forall_forall. intros g0 Hg. rewrite Forall_forall in GW, GZ. specialize (GW _ Hg). destruct (GZ _ Hg) as [_ [_ [_ [T1 [T2 T3]]]]].
        unfold gate_ok in *. rewrite !WW by assumption. exact GW. }
      assert (Lw : length w' = num_variables (base c) + length pa) by (unfold w'; rewrite map_length, seq_length; reflexivity).
      destruct (PE2 w' Lw) as [_ RC]; [rewrite WW by lia; reflexivity|exact GW'|].
      assert (FN : forall i, i < num_variables (base c) -> wire (firstn (num_variables (base c)) w') i = W i).
      { intros i Hi. rewrite <- (WW i) by lia. unfold wire. rewrite <- (firstn_skipn (num_variables (base c)) w') at 2. rewrite app_nth1; [reflexivity|]. rewrite firstn_length. lia. }
      exists (firstn (num_variables (base c)) w'). split; [rewrite firstn_length; lia|]. split; [rewrite FN by lia; reflexivity|]. split; [exact RC|].
      intros col i Hc Hi Hn N B. rewrite FN by exact B.
      assert (SE : sig dd (sm x9) (col, i) = sm x9 col i) by (unfold sig; cbn [fst snd]; destruct (Nat.ltb_spec i (n_used dd)); [reflexivity|lia]).
      rewrite <- SE in *. apply (HX (col, i)); [split; cbn [fst snd]; assumption|exact N].
    - intros w Lw W0 RC. set (a := table_of x9 dd (wire (ext w pa))). pose proof (proj2 (PE1 w Lw W0) RC) as GW.
      assert (AX : forall x, a (fst x) (snd x) = let k := sig dd (sm x9) x in if k =? 0 then f0 else wire (ext w pa) k) by (intros [? ?]; reflexivity).
      split.
      + intros q Hq. destruct (Nat.lt_ge_cases q npr) as [L1|L1]; [rewrite GPUB by exact L1; apply pil_gate_off|].
        destruct (Nat.lt_ge_cases q r2) as [L2|L2]; [|rewrite G4 by exact L2; apply pil_gate_off].
        rewrite GROW by lia. apply (pil_gate_on x9 q a). intros s Hs. destruct (SIG q s ltac:(lia) Hs) as [S1 [S2 S3]].
        assert (V : forall k col, k = sig dd (sm x9) (col, q) -> k <> 0 -> a col q = wire (ext w pa) k).
        { intros k col -> N. change (a col q) with (a (fst (col, q)) (snd (col, q))). rewrite AX. cbv zeta. destruct (Nat.eqb_spec (sig dd (sm x9) (col, q)) 0); [contradiction|reflexivity]. }
        destruct (PL4 q s ltac:(lia) Hs) as [Hin|Hem].
        * rewrite <- (SLOT q s L2) in Hin. rewrite Forall_forall in GW, GZ.
          apply (gate_ok_gval _ (wire (ext w pa)) (slot x9 q s) (a (3 * s) q) (a (3 * s + 1) q) (a (3 * s + 2) q) (GZ _ Hin)); [apply V, S1|apply V, S2|apply V, S3|apply GW, Hin].
        * rewrite <- (SLOT q s L2) in Hem. rewrite Hem. unfold gval, empty_gate. cbn [g_qm g_ql g_qr g_qo g_qc]. ring.
      + apply (COPY Fr (fun x => a (fst x) (snd x))). intros u v _ _ Es _. rewrite !AX, Es. reflexivity.
  Qed.
End Top.
